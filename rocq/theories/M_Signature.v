(** Model of /repo/src/types/signature.rs. *)
From Verif Require Import M_Base.

(** signature.rs:4: a newtype over [u32]; derived [PartialEq] (line 3) compares the number. *)
Definition Signature : Type := Z.
(** signature.rs:3. *)
Definition sig_eqb (a b : Signature) : bool := a =? b.

(** signature.rs:7-9 [Signature::new(&[u8; 4])] *)
Definition sig_new (value : list Z) : Signature := be_val value.

(** signature.rs:29-33 [Default]: [Self::new(b"    ")] *)
Definition sig_default : Signature := sig_new [32; 32; 32; 32].

(** signature.rs:34-38 [From<Signature> for u32] and 39-43 [From<u32> for Signature] *)
Definition sig_to_u32 (item : Signature) : Z := item.
(** signature.rs:39-43. *)
Definition sig_of_u32 (item : Z) : Signature := item.

(** signature.rs:44-48 [From<Signature> for [u8; 4]] *)
Definition sig_to_bytes (value : Signature) : list Z := be_bytes 4 value.

(** [&l[..n]]: a panic if [l] is shorter.
    Cf. signature.rs:81-84. *)
Definition slice_to (l : list Z) (n : nat) : res (list Z) := if (n <=? length l)%nat then Ok (firstn n l) else Panic.
(** [dst[..n].copy_from_slice(src)]: a panic if [dst] is shorter or [src] does not have [n] elements.
    Cf. signature.rs:57,64,71,81-84. *)
Definition copy_prefix (dst : list Z) (n : nat) (src : list Z) : res (list Z) :=
  if ((n <=? length dst) && (length src =? n))%nat then Ok (src ++ skipn n dst) else Panic.
(** [dst[..n].copy_from_slice(&src[..n])], signature.rs:81-84. *)
Definition copy_first (dst : list Z) (n : nat) (src : list Z) : res (list Z) :=
  match slice_to src n with Ok part => copy_prefix dst n part | Err e => Err e | Panic => Panic end.

(** signature.rs:49-53 [From<&[u8; 4]>] *)
Definition sig_of_array4 (value : list Z) : Signature := be_val value.

(** signature.rs:54-60, 61-67, 68-74 [From<&[u8; 3]>], [From<&[u8; 2]>], [From<&[u8; 1]>]:
    identical bodies up to the length [n]. *)
Definition sig_of_array_short (n : nat) (value : list Z) : res Signature :=
  match copy_prefix [32; 32; 32; 32] n value with Ok result => Ok (be_val result) | Err e => Err e | Panic => Panic end.

(** signature.rs:75-88 [From<&[u8]>] *)
Definition sig_of_slice (value : list Z) : res Signature :=
  let result := [32; 32; 32; 32] in
  let filled :=
    match length value with
    | O => Ok result
    | 1%nat => copy_first result 1 value
    | 2%nat => copy_first result 2 value
    | 3%nat => copy_first result 3 value
    | _ => copy_first result 4 value
    end in
  match filled with Ok result => Ok (sig_of_array4 result) | Err e => Err e | Panic => Panic end.

(** [std::str::from_utf8(..).is_ok()]: the std validation loop (core::str::validations::
    run_utf8_validation), byte classes as in that function.  Used at signature.rs:15 and 91. *)
Definition in_range (lo hi b : Z) : bool := (lo <=? b) && (b <=? hi).
(** Used at signature.rs:15 and 91. *)
Definition is_cont (b : Z) : bool := in_range 128 191 b.

(** Used at signature.rs:15 and 91. *)
Fixpoint utf8_ok_fuel (fuel : nat) (l : list Z) : bool :=
  match fuel with
  | O => match l with [] => true | _ => false end
  | S f =>
      match l with
      | [] => true
      | b0 :: r =>
          if b0 <? 128 then utf8_ok_fuel f r
          else if in_range 194 223 b0 then            (* width 2 *)
            match r with
            | b1 :: r1 => is_cont b1 && utf8_ok_fuel f r1
            | _ => false
            end
          else if in_range 224 239 b0 then            (* width 3 *)
            match r with
            | b1 :: b2 :: r2 =>
                ( ((b0 =? 224) && in_range 160 191 b1)
                  || (in_range 225 236 b0 && is_cont b1)
                  || ((b0 =? 237) && in_range 128 159 b1)
                  || (in_range 238 239 b0 && is_cont b1) )
                && is_cont b2 && utf8_ok_fuel f r2
            | _ => false
            end
          else if in_range 240 244 b0 then            (* width 4 *)
            match r with
            | b1 :: b2 :: b3 :: r3 =>
                ( ((b0 =? 240) && in_range 144 191 b1)
                  || (in_range 241 243 b0 && is_cont b1)
                  || ((b0 =? 244) && in_range 128 143 b1) )
                && is_cont b2 && is_cont b3 && utf8_ok_fuel f r3
            | _ => false
            end
          else false
      end
  end.
(** Used at signature.rs:15 and 91. *)
Definition utf8_ok (l : list Z) : bool := utf8_ok_fuel (length l) l.

(** signature.rs:89-96 [From<Signature> for String]; a [String] is its UTF-8 bytes. *)
Definition sig_to_string (value : Signature) : list Z :=
  if utf8_ok (be_bytes 4 value) then be_bytes 4 value else [32; 32; 32; 32].

(** signature.rs:97-101 [From<&str>] *)
Definition sig_of_str (s : list Z) : res Signature := sig_of_slice s.

(** [{:2x}]: lower-case hexadecimal, right-aligned to width 2 with spaces. *)
Definition hex_digit (d : Z) : Z := if d <? 10 then 48 + d else 87 + d.
(** signature.rs:20. *)
Definition hex2 (b : Z) : list Z :=
  if b <? 16 then [32; hex_digit b] else [hex_digit (b / 16); hex_digit (b mod 16)].

(** signature.rs:12-28 [fmt::Debug]: the [value] string handed to [debug_struct] (the quoting that
    [debug_struct] applies to it is not modelled). *)
Definition sig_debug_value (sg : Signature) : list Z :=
  let bytes := be_bytes 4 sg in
  if utf8_ok bytes then bytes
  else flat_map (fun b => [32] ++ hex2 b ++ [32]) bytes.
