(** Algebra of byte strings. *)
From Verif Require Import M_Base M_Endian S_Bytes.

Lemma pow256_S n : 256 ^ Z.of_nat (S n) = 256 * 256 ^ Z.of_nat n.
Proof. rewrite Nat2Z.inj_succ, Z.pow_succ_r by lia. reflexivity. Qed.

Lemma pow256_pos n : 0 < 256 ^ Z.of_nat n.
Proof. apply Z.pow_pos_nonneg; lia. Qed.

Lemma le_bytes_length n v : length (le_bytes n v) = n.
Proof. revert v; induction n; simpl; auto. Qed.
Lemma be_bytes_length n v : length (be_bytes n v) = n.
Proof. unfold be_bytes. rewrite rev_length. apply le_bytes_length. Qed.
Lemma ne_bytes_length e n v : length (ne_bytes e n v) = n.
Proof. unfold ne_bytes. destruct (host_big e); auto using le_bytes_length, be_bytes_length. Qed.

Lemma le_bytes_bytes n v : are_bytes (le_bytes n v).
Proof.
  revert v; induction n; intros; simpl; constructor; [| apply IHn].
  apply Z.mod_pos_bound; lia.
Qed.
Lemma are_bytes_rev l : are_bytes l -> are_bytes (rev l).
Proof. apply Forall_rev. Qed.
Lemma be_bytes_bytes n v : are_bytes (be_bytes n v).
Proof. apply are_bytes_rev, le_bytes_bytes. Qed.
Lemma ne_bytes_bytes e n v : are_bytes (ne_bytes e n v).
Proof. unfold ne_bytes. destruct (host_big e); auto using le_bytes_bytes, be_bytes_bytes. Qed.

Lemma le_val_bytes n v : le_val (le_bytes n v) = v mod 256 ^ Z.of_nat n.
Proof.
  revert v; induction n; intros.
  - simpl. now rewrite Z.mod_1_r.
  - cbn [le_bytes le_val]. rewrite IHn, pow256_S.
    pose proof (pow256_pos n).
    rewrite Z.rem_mul_r by lia. reflexivity.
Qed.

Lemma le_val_bound l : are_bytes l -> is_uint (length l) (le_val l).
Proof.
  unfold is_uint. induction 1 as [|b l Hb Hl IH].
  - simpl. lia.
  - cbn [length le_val]. rewrite pow256_S. unfold is_byte in Hb. lia.
Qed.

Lemma le_bytes_val l : are_bytes l -> le_bytes (length l) (le_val l) = l.
Proof.
  induction 1 as [|b l Hb Hl IH]; [reflexivity|].
  cbn [length le_val le_bytes]. unfold is_byte in Hb. f_equal.
  - rewrite (Z.mul_comm 256), Z.mod_add by lia. apply Z.mod_small; lia.
  - rewrite (Z.mul_comm 256), Z.div_add by lia.
    rewrite (Z.div_small b) by lia. exact IH.
Qed.

Lemma uint_mod n v : is_uint n v -> v mod 256 ^ Z.of_nat n = v.
Proof. intros; now apply Z.mod_small. Qed.

Lemma be_val_bytes n v : be_val (be_bytes n v) = v mod 256 ^ Z.of_nat n.
Proof. unfold be_val, be_bytes. rewrite rev_involutive. apply le_val_bytes. Qed.
Lemma be_bytes_val l : are_bytes l -> be_bytes (length l) (be_val l) = l.
Proof.
  intros. unfold be_val, be_bytes. rewrite <- (rev_length l).
  rewrite le_bytes_val by now apply are_bytes_rev. apply rev_involutive.
Qed.
Lemma be_val_bound l : are_bytes l -> is_uint (length l) (be_val l).
Proof. intros. unfold be_val. rewrite <- (rev_length l). apply le_val_bound. now apply are_bytes_rev. Qed.

Lemma ne_val_bytes e n v : ne_val e (ne_bytes e n v) = v mod 256 ^ Z.of_nat n.
Proof. unfold ne_val, ne_bytes. destruct (host_big e); auto using le_val_bytes, be_val_bytes. Qed.
Lemma ne_bytes_val e l : are_bytes l -> ne_bytes e (length l) (ne_val e l) = l.
Proof. unfold ne_val, ne_bytes. destruct (host_big e); auto using le_bytes_val, be_bytes_val. Qed.
Lemma ne_val_bound e l : are_bytes l -> is_uint (length l) (ne_val e l).
Proof. unfold ne_val. destruct (host_big e); auto using le_val_bound, be_val_bound. Qed.

Lemma swap_bytes_uint n v : is_uint n (swap_bytes n v).
Proof.
  unfold swap_bytes. rewrite <- (be_bytes_length n v) at 1. apply le_val_bound, be_bytes_bytes.
Qed.
Lemma le_bytes_swap n v : le_bytes n (swap_bytes n v) = be_bytes n v.
Proof.
  unfold swap_bytes. rewrite <- (be_bytes_length n v) at 1. apply le_bytes_val, be_bytes_bytes.
Qed.
Lemma be_bytes_swap n v : be_bytes n (swap_bytes n v) = le_bytes n v.
Proof. unfold be_bytes at 1. rewrite le_bytes_swap. apply rev_involutive. Qed.
Lemma swap_swap n v : is_uint n v -> swap_bytes n (swap_bytes n v) = v.
Proof.
  intros. unfold swap_bytes at 1. rewrite be_bytes_swap, le_val_bytes. now apply uint_mod.
Qed.

(** Agreement with the positional specification. *)
Lemma big_value_app l b : big_value (l ++ [b]) = 256 * big_value l + b.
Proof. unfold big_value. now rewrite fold_left_app. Qed.
Lemma be_val_spec l : be_val l = big_value l.
Proof.
  unfold be_val. induction l using rev_ind; [reflexivity|].
  rewrite rev_app_distr, big_value_app, <- IHl. simpl. lia.
Qed.
Lemma weigh_shift i l : 0 <= i -> weigh i l = 256 ^ i * le_val l.
Proof.
  revert i; induction l; intros; cbn [weigh le_val]; [lia|].
  rewrite IHl by lia. rewrite Z.pow_add_r by lia. change (256 ^ 1) with 256. ring.
Qed.
Lemma le_val_spec l : le_val l = little_value l.
Proof. unfold little_value. rewrite weigh_shift by lia. lia. Qed.

Lemma byte_of_shift v i : 0 <= i -> byte_of (v / 256) i = byte_of v (i + 1).
Proof.
  intros. unfold byte_of. rewrite Z.div_div by (try lia; apply Z.pow_pos_nonneg; lia).
  replace (256 * 256 ^ i) with (256 ^ (i + 1)); [reflexivity|].
  rewrite Z.pow_add_r by lia. change (256 ^ 1) with 256. ring.
Qed.
Lemma le_bytes_spec n v : le_bytes n v = little_enc n v.
Proof.
  unfold little_enc. revert v; induction n; intros; [reflexivity|].
  cbn [le_bytes seq map]. f_equal.
  - unfold byte_of. change (256 ^ Z.of_nat 0) with 1. now rewrite Z.div_1_r.
  - rewrite IHn, <- seq_shift, map_map. apply map_ext. intros.
    rewrite byte_of_shift by lia. f_equal. lia.
Qed.
Lemma rev_seq_map {A} n (f : nat -> A) :
  rev (map f (seq 0 n)) = map (fun i => f (n - 1 - i)%nat) (seq 0 n).
Proof.
  revert f; induction n; intros; [reflexivity|].
  rewrite seq_S at 1. rewrite map_app, rev_app_distr. cbn [map rev app seq Nat.add].
  rewrite IHn. f_equal; [f_equal; lia|].
  rewrite <- seq_shift, map_map. apply map_ext_in. intros a Ha%in_seq. f_equal. lia.
Qed.
Lemma be_bytes_spec n v : be_bytes n v = big_enc n v.
Proof.
  unfold be_bytes, big_enc. rewrite le_bytes_spec. unfold little_enc. rewrite rev_seq_map.
  apply map_ext_in. intros a Ha%in_seq. f_equal. lia.
Qed.
