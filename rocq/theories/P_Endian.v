(** Byte-order helpers. *)
From Verif Require Import M_Base M_Endian S_Bytes P_Bytes.

Lemma ne_be_adjust e n v : ne_bytes e n (be_adjust_int e n v) = big_enc n v.
Proof.
  unfold ne_bytes, be_adjust_int, to_be. destruct (host_big e).
  - apply be_bytes_spec.
  - rewrite le_bytes_swap. apply be_bytes_spec.
Qed.
Lemma ne_le_adjust e n v : ne_bytes e n (le_adjust_int e n v) = little_enc n v.
Proof.
  unfold ne_bytes, le_adjust_int, to_le. destruct (host_big e).
  - rewrite be_bytes_swap. apply le_bytes_spec.
  - apply le_bytes_spec.
Qed.
Lemma ne_adjust e n v : ne_bytes e n (adjust_int e n v) = wire_enc (feat_le e) n v.
Proof. unfold adjust_int, wire_enc. destruct (feat_le e); auto using ne_le_adjust, ne_be_adjust. Qed.

Lemma swap_val_le l : are_bytes l -> swap_bytes (length l) (le_val l) = be_val l.
Proof.
  intros. unfold swap_bytes, be_bytes. rewrite le_bytes_val by assumption. reflexivity.
Qed.
Lemma swap_val_be l : are_bytes l -> swap_bytes (length l) (be_val l) = le_val l.
Proof. intros. unfold swap_bytes. now rewrite be_bytes_val. Qed.

Lemma be_adjust_ne_val e l : are_bytes l -> be_adjust_int e (length l) (ne_val e l) = big_value l.
Proof.
  intros. unfold be_adjust_int, to_be, ne_val. rewrite <- be_val_spec.
  destruct (host_big e); [reflexivity|]. now apply swap_val_le.
Qed.
Lemma le_adjust_ne_val e l : are_bytes l -> le_adjust_int e (length l) (ne_val e l) = little_value l.
Proof.
  intros. unfold le_adjust_int, to_le, ne_val. rewrite <- le_val_spec.
  destruct (host_big e); [|reflexivity]. now apply swap_val_be.
Qed.
Lemma adjust_ne_val e l : are_bytes l -> adjust_int e (length l) (ne_val e l) = wire_value (feat_le e) l.
Proof.
  intros. unfold adjust_int, wire_value. destruct (feat_le e); auto using be_adjust_ne_val, le_adjust_ne_val.
Qed.

Lemma be_adjust_array_val e l : are_bytes l ->
  ne_val e (be_adjust_array e (length l) l) = big_value l.
Proof.
  intros. unfold be_adjust_array. rewrite ne_val_bytes, uint_mod.
  - apply be_val_spec.
  - now apply be_val_bound.
Qed.
Lemma le_adjust_array_val e l : are_bytes l ->
  ne_val e (le_adjust_array e (length l) l) = little_value l.
Proof.
  intros. unfold le_adjust_array. rewrite ne_val_bytes, uint_mod.
  - apply le_val_spec.
  - now apply le_val_bound.
Qed.

Lemma adjust_array_val e l : are_bytes l ->
  ne_val e (adjust_array e (length l) l) = wire_value (feat_le e) l.
Proof.
  intros. unfold adjust_array, wire_value.
  destruct (feat_le e); auto using be_adjust_array_val, le_adjust_array_val.
Qed.

Lemma be_adjust_int_inv e n v : is_uint n v -> be_adjust_int e n (be_adjust_int e n v) = v.
Proof. intros. unfold be_adjust_int, to_be. destruct (host_big e); auto using swap_swap. Qed.
Lemma le_adjust_int_inv e n v : is_uint n v -> le_adjust_int e n (le_adjust_int e n v) = v.
Proof. intros. unfold le_adjust_int, to_le. destruct (host_big e); auto using swap_swap. Qed.
Lemma adjust_int_inv e n v : is_uint n v -> adjust_int e n (adjust_int e n v) = v.
Proof. intros. unfold adjust_int. destruct (feat_le e); auto using be_adjust_int_inv, le_adjust_int_inv. Qed.

Lemma adjust_int_uint e n v : is_uint n v -> is_uint n (adjust_int e n v).
Proof.
  intros. unfold adjust_int, le_adjust_int, be_adjust_int, to_be, to_le.
  destruct (feat_le e), (host_big e); auto using swap_bytes_uint.
Qed.

(** On arrays the helper is reversal or identity. *)
Lemma be_adjust_array_eq e l : are_bytes l ->
  be_adjust_array e (length l) l = if host_big e then l else rev l.
Proof.
  intros. unfold be_adjust_array, ne_bytes. destruct (host_big e).
  - now apply be_bytes_val.
  - unfold be_val. rewrite <- (rev_length l). now apply le_bytes_val, are_bytes_rev.
Qed.
Lemma le_adjust_array_eq e l : are_bytes l ->
  le_adjust_array e (length l) l = if host_big e then rev l else l.
Proof.
  intros. unfold le_adjust_array, ne_bytes. destruct (host_big e).
  - unfold be_bytes. f_equal. now apply le_bytes_val.
  - now apply le_bytes_val.
Qed.
Lemma be_adjust_array_inv e l : are_bytes l ->
  be_adjust_array e (length l) (be_adjust_array e (length l) l) = l.
Proof.
  intros. rewrite be_adjust_array_eq by assumption. destruct (host_big e) eqn:E.
  - rewrite be_adjust_array_eq, E by assumption. reflexivity.
  - rewrite <- (rev_length l). rewrite be_adjust_array_eq, E by now apply are_bytes_rev.
    apply rev_involutive.
Qed.
Lemma le_adjust_array_inv e l : are_bytes l ->
  le_adjust_array e (length l) (le_adjust_array e (length l) l) = l.
Proof.
  intros. rewrite le_adjust_array_eq by assumption. destruct (host_big e) eqn:E.
  - rewrite <- (rev_length l). rewrite le_adjust_array_eq, E by now apply are_bytes_rev.
    apply rev_involutive.
  - rewrite le_adjust_array_eq, E by assumption. reflexivity.
Qed.
Lemma adjust_array_inv e l : are_bytes l ->
  adjust_array e (length l) (adjust_array e (length l) l) = l.
Proof. unfold adjust_array. destruct (feat_le e); auto using be_adjust_array_inv, le_adjust_array_inv. Qed.

Lemma be_int_array_agree e n v :
  is_uint n v -> ne_bytes e n (be_adjust_int e n v) = be_adjust_array e n (ne_bytes e n v).
Proof.
  intros. rewrite ne_be_adjust, <- be_bytes_spec. rewrite <- (ne_bytes_length e n v) at 2.
  rewrite be_adjust_array_eq by apply ne_bytes_bytes.
  unfold ne_bytes, be_bytes. destruct (host_big e); reflexivity.
Qed.
Lemma le_int_array_agree e n v :
  is_uint n v -> ne_bytes e n (le_adjust_int e n v) = le_adjust_array e n (ne_bytes e n v).
Proof.
  intros. rewrite ne_le_adjust, <- le_bytes_spec. rewrite <- (ne_bytes_length e n v) at 2.
  rewrite le_adjust_array_eq by apply ne_bytes_bytes.
  unfold ne_bytes, be_bytes. destruct (host_big e); [|reflexivity]. now rewrite rev_involutive.
Qed.
Lemma int_array_agree e n v :
  is_uint n v -> ne_bytes e n (adjust_int e n v) = adjust_array e n (ne_bytes e n v).
Proof.
  intros. unfold adjust_int, adjust_array.
  destruct (feat_le e); auto using be_int_array_agree, le_int_array_agree.
Qed.

(** Specification facts used elsewhere. *)
Lemma wire_enc_length b n v : length (wire_enc b n v) = n.
Proof. unfold wire_enc, little_enc, big_enc. destruct b; now rewrite map_length, seq_length. Qed.
Lemma wire_enc_bytes b n v : are_bytes (wire_enc b n v).
Proof.
  unfold wire_enc. destruct b.
  - rewrite <- le_bytes_spec. apply le_bytes_bytes.
  - rewrite <- be_bytes_spec. apply be_bytes_bytes.
Qed.
Lemma wire_value_enc b n v : is_uint n v -> wire_value b (wire_enc b n v) = v.
Proof.
  intros. unfold wire_value, wire_enc. destruct b.
  - rewrite <- le_bytes_spec, <- le_val_spec, le_val_bytes. now apply uint_mod.
  - rewrite <- be_bytes_spec, <- be_val_spec, be_val_bytes. now apply uint_mod.
Qed.
Lemma wire_enc_value b l : are_bytes l -> wire_enc b (length l) (wire_value b l) = l.
Proof.
  intros. unfold wire_value, wire_enc. destruct b.
  - rewrite <- le_bytes_spec, <- le_val_spec. now apply le_bytes_val.
  - rewrite <- be_bytes_spec, <- be_val_spec. now apply be_bytes_val.
Qed.
Lemma wire_value_uint b l : are_bytes l -> is_uint (length l) (wire_value b l).
Proof.
  intros. unfold wire_value. destruct b.
  - rewrite <- le_val_spec. now apply le_val_bound.
  - rewrite <- be_val_spec. now apply be_val_bound.
Qed.
