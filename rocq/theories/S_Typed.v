(** Specification: typed values on a byte stream. *)
From Flocq Require Import IEEE754.Bits.
From Verif Require Import S_Bytes M_Base M_F64 M_IO.

(** The values a client can transfer; [VF32] carries the 32-bit pattern. *)
Inductive tval :=
| VU8 (v : Z)
| VU16 (v : Z)
| VU16s (vs : list Z)
| VU32 (v : Z)
| VF32 (bits : Z)
| VU64 (v : Z).

Definition tval_ok (t : tval) : Prop :=
  match t with
  | VU8 v => is_uint 1 v
  | VU16 v => is_uint 2 v
  | VU16s vs => Forall (is_uint 2) vs
  | VU32 v | VF32 v => is_uint 4 v
  | VU64 v => is_uint 8 v
  end.

(** Their bytes on the wire. *)
Definition tval_bytes (little : bool) (t : tval) : list Z :=
  match t with
  | VU8 v => [v]
  | VU16 v => wire_enc little 2 v
  | VU16s vs => flat_map (wire_enc little 2) vs
  | VU32 v | VF32 v => wire_enc little 4 v
  | VU64 v => wire_enc little 8 v
  end.

Definition tval_size (t : tval) : Z :=
  match t with
  | VU8 _ => 1 | VU16 _ => 2 | VU16s vs => 2 * Z.of_nat (length vs) | VU32 _ | VF32 _ => 4 | VU64 _ => 8
  end.
Definition total_size (ts : list tval) : Z := fold_right (fun t n => tval_size t + n) 0 ts.

(** Client programs over any handler. *)
Section Clients.
  Context {S : Type} (e : env) (h : IOHandler S).

  (** Element-wise transfer with its stopping point. *)
  Inductive writes_in_order (w : Z -> S -> res unit * S) : list Z -> S -> res unit -> S -> Prop :=
  | wio_done s : writes_in_order w [] s (Ok tt) s
  | wio_stop v vs s r s' : w v s = (r, s') -> r <> Ok tt -> writes_in_order w (v :: vs) s r s'
  | wio_next v vs s s1 r s' :
      w v s = (Ok tt, s1) -> writes_in_order w vs s1 r s' -> writes_in_order w (v :: vs) s r s'.

  (** [reads_in_order rd buf s r s' buf']: reading items one by one into [buf]. *)
  Inductive reads_in_order (rd : S -> res Z * S) : list Z -> S -> res unit -> S -> list Z -> Prop :=
  | rio_done s : reads_in_order rd [] s (Ok tt) s []
  | rio_err x buf s er s' : rd s = (Err er, s') -> reads_in_order rd (x :: buf) s (Err er) s' (x :: buf)
  | rio_panic x buf s s' : rd s = (Panic, s') -> reads_in_order rd (x :: buf) s Panic s' (x :: buf)
  | rio_next x buf s v s1 r s' buf' :
      rd s = (Ok v, s1) -> reads_in_order rd buf s1 r s' buf' ->
      reads_in_order rd (x :: buf) s r s' (v :: buf').

  (** Transfer of one value, then of a list of values. *)
  Definition write_t (t : tval) (s : S) : res unit * S :=
    match t with
    | VU8 v => write_u8 h v s
    | VU16 v => write_u16 e h v s
    | VU16s vs => write_u16_array e h vs s
    | VU32 v => write_u32 e h v s
    | VF32 bits => write_f32 e h (f32_of_bits bits) s
    | VU64 v => write_u64 e h v s
    end.

  Definition rmap {A B} (f : A -> B) (x : res A * S) : res B * S := bind x (fun a s => (Ok (f a), s)).

  (** Read a value of the same kind (and array length) as [t]. *)
  Definition read_t (t : tval) (s : S) : res tval * S :=
    match t with
    | VU8 _ => rmap VU8 (read_u8 h s)
    | VU16 _ => rmap VU16 (read_u16 e h s)
    | VU16s vs =>
        match read_u16_array e h (repeat 0 (length vs)) s with
        | (Ok _, s', buf) => (Ok (VU16s buf), s')
        | (Err er, s', _) => (Err er, s')
        | (Panic, s', _) => (Panic, s')
        end
    | VU32 _ => rmap VU32 (read_u32 e h s)
    | VF32 _ => rmap (fun x => VF32 (bits_of_f32 x)) (read_f32 e h s)
    | VU64 _ => rmap VU64 (read_u64 e h s)
    end.

  Fixpoint write_ts (ts : list tval) (s : S) : res unit * S :=
    match ts with
    | [] => (Ok tt, s)
    | t :: r => bind (write_t t s) (fun _ s' => write_ts r s')
    end.
  Fixpoint read_ts (ts : list tval) (s : S) : res (list tval) * S :=
    match ts with
    | [] => (Ok [], s)
    | t :: r => bind (read_t t s) (fun v s1 => bind (read_ts r s1) (fun vs s2 => (Ok (v :: vs), s2)))
    end.
End Clients.
