(** Model of the [Debug] texts of /repo/src/types/signature.rs:11-28 and
    /repo/src/types/profile_id.rs:10-21, including std's quoting of the string field. *)
From Coq Require Import String.
From Verif Require Import M_Base M_Signature M_Context.
Local Open Scope list_scope.
Local Open Scope Z_scope.

(** core::str::validations::next_code_point, the iterator behind the quoting at signature.rs:26 (bit masks
    written as remainders; the input is valid UTF-8). *)
Definition next_char (l : list Z) : option (Z * list Z) :=
  match l with
  | [] => None
  | x :: r =>
      if x <? 128 then Some (x, r)
      else match r with
           | [] => None
           | y :: r1 =>
               if x <? 224 then Some (x mod 32 * 64 + y mod 64, r1)
               else match r1 with
                    | [] => None
                    | z :: r2 =>
                        if x <? 240 then Some (x mod 32 * 4096 + (y mod 64 * 64 + z mod 64), r2)
                        else match r2 with
                             | [] => None
                             | w :: r3 => Some (x mod 8 * 262144 + ((y mod 64 * 64 + z mod 64) * 64 + w mod 64), r3)
                             end
                    end
           end
  end.

(** [str::chars], used at signature.rs:26; a string has no more characters than bytes. *)
Fixpoint chars_fuel (f : nat) (l : list Z) : list Z :=
  match f with
  | O => []
  | S f' => match next_char l with Some (c, r) => c :: chars_fuel f' r | None => [] end
  end.
(** signature.rs:26 *)
Definition chars (l : list Z) : list Z := chars_fuel (length l) l.

(** The digits of [char::escape_unicode] (signature.rs:26): lower-case hexadecimal without leading zeros.
    Eight digits are enough for a [char]. *)
Fixpoint hex_fuel (f : nat) (v : Z) : list Z :=
  match f with
  | O => []
  | S f' => (if v <? 16 then [] else hex_fuel f' (v / 16)) ++ [hex_digit (v mod 16)]
  end.
(** signature.rs:26 *)
Definition hex (v : Z) : list Z := hex_fuel 8 v.

(** What std's Unicode tables say, which differs between Rust releases: the characters written as they
    are (printable and no grapheme extender), and whether NUL is written [\0] (else [\u{0}]).
    Used at signature.rs:26. *)
Record unicode := mkUnicode { u_shown : Z -> bool; u_short_nul : bool }.

(** UTF-8 encoding of one character ([char::encode_utf8]), signature.rs:26. *)
Definition push_char (c : Z) : list Z :=
  if c <? 128 then [c]
  else if c <? 2048 then [192 + c / 64; 128 + c mod 64]
  else if c <? 65536 then [224 + c / 4096; 128 + c / 64 mod 64; 128 + c mod 64]
  else [240 + c / 262144; 128 + c / 4096 mod 64; 128 + c / 64 mod 64; 128 + c mod 64].

(** [char::escape_debug_ext] as [<str as Debug>::fmt] calls it: double quotes escaped, single quotes not.
    Used at signature.rs:26. *)
Definition escape (u : unicode) (c : Z) : list Z :=
  if (c =? 0) && u_short_nul u then [92; 48]
  else if c =? 9 then [92; 116]
  else if c =? 13 then [92; 114]
  else if c =? 10 then [92; 110]
  else if c =? 34 then [92; 34]
  else if c =? 92 then [92; 92]
  else if u_shown u c then push_char c
  else [92; 117; 123] ++ hex c ++ [125].

(** [<str as Debug>::fmt], signature.rs:26 and profile_id.rs:19. *)
Definition str_debug (u : unicode) (l : list Z) : list Z := [34] ++ flat_map (escape u) (chars l) ++ [34].

(** [f.debug_struct(name).field("value", &value).finish()] under [{:?}] and under [{:#?}]; the quoted
    string has no line break, so the indenting adapter only acts at its start.
    signature.rs:26, profile_id.rs:19. *)
Definition struct_debug (name : string) (quoted : list Z) : list Z :=
  text name ++ text " { value: " ++ quoted ++ text " }".
(** signature.rs:26, profile_id.rs:19. *)
Definition struct_debug_pretty (name : string) (quoted : list Z) : list Z :=
  text name ++ text " {" ++ [10] ++ text "    value: " ++ quoted ++ text "," ++ [10] ++ text "}".

(** signature.rs:12-28 *)
Definition sig_debug (u : unicode) (s : Signature) : list Z :=
  struct_debug "Signature" (str_debug u (sig_debug_value s)).
(** signature.rs:12-28 under [{:#?}] *)
Definition sig_debug_pretty (u : unicode) (s : Signature) : list Z :=
  struct_debug_pretty "Signature" (str_debug u (sig_debug_value s)).

(** profile_id.rs:2-8: the union, as its object representation of 16 bytes. *)
Definition ProfileID : Type := list Z.
(** profile_id.rs:5 reading [id8] *)
Definition id8 (p : ProfileID) : list Z := p.
(** profile_id.rs:6 reading [id16]: native byte order *)
Definition id16 (e : env) (p : ProfileID) : list Z :=
  map (fun i => ne_val e (firstn 2 (skipn (2 * i) p))) (seq 0 8).
(** profile_id.rs:7 reading [id32] *)
Definition id32 (e : env) (p : ProfileID) : list Z :=
  map (fun i => ne_val e (firstn 4 (skipn (4 * i) p))) (seq 0 4).
(** profile_id.rs:6 [ProfileID { id16: .. }] *)
Definition of_id16 (e : env) (l : list Z) : ProfileID := flat_map (ne_bytes e 2) l.
(** profile_id.rs:7 [ProfileID { id32: .. }] *)
Definition of_id32 (e : env) (l : list Z) : ProfileID := flat_map (ne_bytes e 4) l.

(** profile_id.rs:10-21: the string field. *)
Definition profile_id_value (p : ProfileID) : list Z := flat_map (fun b => [32] ++ hex2 b ++ [32]) (id8 p).
(** profile_id.rs:10-21 *)
Definition profile_id_debug (u : unicode) (p : ProfileID) : list Z :=
  struct_debug "ProfileID" (str_debug u (profile_id_value p)).
(** profile_id.rs:10-21 under [{:#?}] *)
Definition profile_id_debug_pretty (u : unicode) (p : ProfileID) : list Z :=
  struct_debug_pretty "ProfileID" (str_debug u (profile_id_value p)).
