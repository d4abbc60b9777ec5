(** Tag search on arbitrary tag tables. *)
From Verif Require Import M_Base M_Signature M_Profile S_Search.

Section Search.
  Context {H : Type} (p : Profile H) (OK : table_ok p).

  Lemma one_from s : forall n i, (i + n = p_tag_count p)%nat -> (forall j, (j < i)%nat -> nth_error (p_tag_names p) j <> Some s) ->
    (search_one_from (p_tag_names p) s n i = Some None /\ unlisted p s) \/
    (exists k, search_one_from (p_tag_names p) s n i = Some (Some k) /\ first_at p s k).
  Proof.
    induction n as [|n IH]; intros i E B; cbn [search_one_from].
    - left. split; [reflexivity|]. intros j J. apply B. lia.
    - destruct OK as (L & _). destruct (nth_error (p_tag_names p) i) as [nm|] eqn:N; [|apply nth_error_None in N; lia].
      unfold sig_eqb. destruct (Z.eqb_spec s nm) as [->|NE].
      + right. exists i. split; [reflexivity|]. split; [lia|]. split; assumption.
      + apply IH; [lia|]. intros j J. destruct (Nat.eq_dec j i) as [->|]; [congruence|apply B; lia].
  Qed.
  Lemma one_spec s : (search_one_tag p s = Some None /\ unlisted p s) \/ (exists k, search_one_tag p s = Some (Some k) /\ first_at p s k).
  Proof. apply one_from; [reflexivity|]. intros j J. lia. Qed.
  Lemma first_unique s i j : first_at p s i -> first_at p s j -> i = j.
  Proof.
    intros (_ & A & B) (_ & A' & B'). destruct (Nat.lt_trichotomy i j) as [L|[E|L]]; [now destruct (B' i L)|exact E|now destruct (B j L)].
  Qed.
  Lemma first_listed s i : first_at p s i -> unlisted p s -> False.
  Proof. intros (L & A & _) U. now apply (U i L). Qed.
  Lemma no_panic follow : forall fuel s, search_tag fuel p s follow <> RunPanic.
  Proof.
    induction fuel as [|f IH]; intros s; cbn [search_tag]; [discriminate|]. unfold search_tag_step.
    destruct (one_spec s) as [(-> & _)|(k & -> & F)]; [discriminate|]. destruct follow; cbn [negb]; [|discriminate].
    destruct (nth_error (p_tag_linked p) k) as [[v|]|] eqn:N; [apply IH|discriminate|].
    apply nth_error_None in N. destruct OK as (_ & L), F as (L' & _). lia.
  Qed.
  Lemma done_ends : forall fuel s r, search_tag fuel p s true = Done r -> search_ends p s r.
  Proof.
    induction fuel as [|f IH]; intros s r; cbn [search_tag]; [discriminate|]. unfold search_tag_step.
    destruct (one_spec s) as [(-> & U)|(k & -> & F)]; [intros [= <-]; now constructor|]. cbn [negb].
    destruct (nth_error (p_tag_linked p) k) as [[v|]|] eqn:N.
    - intros D. apply IH in D. now apply (EndsAfterLink p s k v).
    - intros [= <-]. now constructor.
    - discriminate.
  Qed.
  Lemma ends_done s r : search_ends p s r -> exists n, forall fuel, search_tag (n + fuel) p s true = Done r.
  Proof.
    induction 1 as [s U|s i F N|s i s' r F N _ (n & IH)].
    - exists 1%nat. intros fuel. cbn [Nat.add search_tag]. unfold search_tag_step.
      destruct (one_spec s) as [(-> & _)|(k & -> & F)]; [reflexivity|]. now destruct (first_listed s k).
    - exists 1%nat. intros fuel. cbn [Nat.add search_tag]. unfold search_tag_step.
      destruct (one_spec s) as [(-> & U)|(k & -> & F')]; [now destruct (first_listed s i)|]. rewrite (first_unique _ _ _ F' F). cbn [negb]. now rewrite N.
    - exists (S n). intros fuel. cbn [Nat.add search_tag]. unfold search_tag_step.
      destruct (one_spec s) as [(-> & U)|(k & -> & F')]; [now destruct (first_listed s i)|]. rewrite (first_unique _ _ _ F' F). cbn [negb]. rewrite N. apply IH.
  Qed.
  Lemma search_follows s r : (exists fuel, search_tag fuel p s true = Done r) <-> search_ends p s r.
  Proof.
    split; [intros (f & D); now apply done_ends in D|]. intros E. destruct (ends_done s r E) as (n & D). exists (n + 0)%nat. apply D.
  Qed.
  Lemma search_forever s : (forall fuel, exists s', search_tag fuel p s true = Running s') <-> forall r, ~ search_ends p s r.
  Proof.
    split.
    - intros R r E. apply search_follows in E. destruct E as (f & D). destruct (R f) as (s' & R'). congruence.
    - intros N f. destruct (search_tag f p s true) as [r| |s'] eqn:D; [|now destruct (no_panic true f s)|now exists s'].
      destruct (N r). now apply (done_ends f).
  Qed.
  Lemma search_plain s fuel r : search_tag (S fuel) p s false = Done r <->
    match r with None => unlisted p s | Some i => first_at p s i end.
  Proof.
    cbn [search_tag]. unfold search_tag_step. destruct (one_spec s) as [(-> & U)|(k & -> & F)]; cbn [negb].
    - split; [intros [= <-]; exact U|]. destruct r as [i|]; [|reflexivity]. intros F. now destruct (first_listed s i).
    - split; [intros [= <-]; exact F|]. destruct r as [i|]; [|intros U; now destruct (first_listed s k)]. intros F'. now rewrite (first_unique _ _ _ F F').
  Qed.
End Search.
