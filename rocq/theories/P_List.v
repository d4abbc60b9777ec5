(** List facts. *)
From Coq Require Import List Lia Arith ZArith.
Import ListNotations.

Section L.
  Context {A : Type}.
  Implicit Types (l b : list A).

  Definition splice l (p : nat) b : list A := firstn p l ++ b ++ skipn (p + length b) l.

  Lemma length_splice l p b : p <= length l -> length (splice l p b) = Nat.max (length l) (p + length b).
  Proof. intros. unfold splice. rewrite !app_length, firstn_length, skipn_length. lia. Qed.

  Lemma nth_skipn l k i d : nth i (skipn k l) d = nth (k + i) l d.
  Proof.
    revert l; induction k; intros; [reflexivity|].
    destruct l; [now destruct i|]. simpl. apply IHk.
  Qed.
  Lemma nth_firstn l k i d : i < k -> nth i (firstn k l) d = nth i l d.
  Proof.
    revert l i; induction k; intros; [lia|].
    destruct l; [reflexivity|]. destruct i; [reflexivity|]. simpl. apply IHk. lia.
  Qed.

  Lemma nth_splice l p b i d : p <= length l ->
    nth i (splice l p b) d =
    if i <? p then nth i l d else if i <? p + length b then nth (i - p) b d else nth i l d.
  Proof.
    intros. unfold splice.
    assert (Hf : length (firstn p l) = p) by (rewrite firstn_length; lia).
    destruct (Nat.ltb_spec i p).
    - rewrite app_nth1 by lia. now apply nth_firstn.
    - rewrite app_nth2 by lia. rewrite Hf.
      destruct (Nat.ltb_spec i (p + length b)).
      + now rewrite app_nth1 by lia.
      + rewrite app_nth2 by lia. rewrite nth_skipn. f_equal. lia.
  Qed.

  Lemma splice_nil l p : splice l p [] = l.
  Proof. unfold splice. simpl. rewrite Nat.add_0_r. apply firstn_skipn. Qed.

  Lemma skipn_add l k m : skipn k (skipn m l) = skipn (m + k) l.
  Proof.
    revert l k; induction m; intros; [reflexivity|].
    destruct l; [now rewrite !skipn_nil|]. simpl. apply IHm.
  Qed.

  Lemma splice_app l p b c : p <= length l -> splice (splice l p b) (p + length b) c = splice l p (b ++ c).
  Proof.
    intros. unfold splice at 1 3.
    assert (E1 : firstn (p + length b) (splice l p b) = firstn p l ++ b).
    { unfold splice. rewrite app_assoc, firstn_app.
      replace (p + length b - length (firstn p l ++ b)) with 0
        by (rewrite app_length, firstn_length; lia).
      rewrite firstn_O, app_nil_r. apply firstn_all2. rewrite app_length, firstn_length. lia. }
    assert (E2 : skipn (p + length b + length c) (splice l p b) = skipn (p + length (b ++ c)) l).
    { unfold splice. rewrite app_assoc, skipn_app.
      rewrite (skipn_all2 (firstn p l ++ b)) by (rewrite app_length, firstn_length; lia).
      rewrite app_nil_l, skipn_add. f_equal.
      rewrite !app_length, firstn_length. lia. }
    rewrite E1, E2. now rewrite <- app_assoc, (app_assoc b c).
  Qed.

  Lemma list_ext l b d : length l = length b -> (forall i, i < length l -> nth i l d = nth i b d) -> l = b.
  Proof. intros. now apply (nth_ext l b d d). Qed.
End L.
