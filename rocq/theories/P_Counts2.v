(** Proofs: every byte of header and directory that is not ignored decides about some file (C104). *)
From Verif Require Import M_Base M_Signature M_Header M_Context M_Profile M_FileFile S_Bytes S_Header S_Profile S_Conditions S_Counts
  P_Open2 P_Same P_Counts Props_Endian Props_Mem Props_Profile.
Local Open Scope list_scope.
Local Open Scope Z_scope.

Definition sized (s : list Z) : list Z := s ++ skipn 4 (two_tags [0;0;0;44] [0;0;0;156] [0;0;0;44] [0;0;0;156]).
Definition set_byte (d : list Z) (p : nat) (v : Z) : list Z := firstn p d ++ [v] ++ skipn (S p) d.
Definition differ (r1 r2 : open_result) : bool :=
  match or_res r1, or_res r2 with
  | Ok p1, Ok p2 => negb (profile_eqb p1 p2)
  | Err _, Err _ | Panic, Panic => false
  | _, _ => true
  end.
Definition tries : list (list Z * Z) :=
  list_prod [sized [1;0;0;0]; sized [0;1;0;0]; sized [0;0;1;0]; sized [0;0;0;200]] [0; 1; 255].
Notation witness p := (find (fun x => differ (open_disk pc [] (fst x)) (open_disk pc [] (set_byte (fst x) p (snd x)))) tries).
Lemma differ_sound r1 r2 : differ r1 r2 = true -> ~ same_outcome r1 r2.
Proof.
  unfold differ, same_outcome. intros D (_ & _ & S). destruct (or_res r1), (or_res r2); try discriminate D; try contradiction.
  apply profile_eqb_iff in S. now rewrite S in D.
Qed.
Lemma set_byte_agrees d p v : (p < List.length d)%nat -> List.length d = List.length (set_byte d p v) /\ agree_on (fun x => x <> p) d (set_byte d p v).
Proof.
  intros L. unfold set_byte. split.
  - rewrite !app_length, firstn_length, skipn_length. cbn [List.length]. lia.
  - intros x X. destruct (Nat.lt_ge_cases x p) as [H|H].
    + rewrite app_nth1 by (rewrite firstn_length; lia). symmetry. exact (slice_nth d 0 p x H).
    + rewrite app_nth2 by (rewrite firstn_length; lia). rewrite firstn_length, Nat.min_l by lia.
      destruct (x - p)%nat as [|k] eqn:E; [lia|]. cbn [app nth]. rewrite <- (firstn_skipn (S p) d) at 1.
      rewrite app_nth2 by (rewrite firstn_length; lia). f_equal. rewrite firstn_length. lia.
Qed.
Definition is_ignored (p : nat) : bool :=
  ((4 <=? p) && (p <? 8) || (40 <=? p) && (p <? 44) || (68 <=? p) && (p <? 80) || (100 <=? p) && (p <? 128))%nat.
Lemma witnesses : forallb (fun p => is_ignored p || match witness p with Some _ => true | None => false end) (seq 0 156) = true.
Proof. vm_compute. reflexivity. Qed.
Lemma tries_good : forallb (fun x => (List.length (fst x) =? 200)%nat && (0 <=? snd x) && (snd x <? 256) &&
  forallb (fun b => (0 <=? b) && (b <? 256)) (fst x)) tries = true.
Proof. vm_compute. reflexivity. Qed.
Section Search.
  Context (f : list Z -> open_result) (l : list (list Z * Z)) (p : nat).
  Context (good : forallb (fun x => (List.length (fst x) =? 200)%nat && (0 <=? snd x) && (snd x <? 256) &&
    forallb (fun b => (0 <=? b) && (b <? 256)) (fst x)) l = true) (P : (p < 200)%nat).
  Lemma found x : find (fun x => differ (f (fst x)) (f (set_byte (fst x) p (snd x)))) l = Some x ->
    exists d d', openable (disk d) 7%nat d /\ openable (disk d') 7%nat d' /\ List.length d = 200%nat /\ List.length d' = 200%nat /\
    agree_on (fun x => x <> p) d d' /\ ~ same_outcome (f d) (f d').
  Proof.
    destruct x as [d v]. intros E. apply find_some in E. destruct E as (IN & D). cbn [fst snd] in D.
    apply differ_sound in D. rewrite forallb_forall in good. specialize (good _ IN). cbn [fst snd] in good. rename good into G.
    apply andb_prop in G. destruct G as (G & B). apply andb_prop in G. destruct G as (G & V2). apply andb_prop in G. destruct G as (L & V1). apply Nat.eqb_eq in L.
    destruct (set_byte_agrees d p v ltac:(rewrite L; exact P)) as (L' & A).
    assert (LZ : (Z.of_nat 200 <=? 9223372036854775807) = true) by reflexivity.
    exists d, (set_byte d p v). split; [apply disk_openable; [exact B|now rewrite L]|]. split; [apply disk_openable; [|now rewrite <- L', L]|].
    - unfold set_byte. rewrite !forallb_app. cbn [forallb]. rewrite V1, V2. cbn [andb]. rewrite forallb_forall in B.
      apply andb_true_iff. split; apply forallb_forall; intros x X; apply B; [rewrite <- (firstn_skipn p d)|rewrite <- (firstn_skipn (S p) d)]; apply in_or_app; auto.
    - split; [exact L|]. split; [now rewrite <- L'|]. split; [exact A|exact D].
  Qed.
End Search.
Lemma not_ignored p : ~ ignored p -> is_ignored p = false.
Proof.
  intros I. destruct (is_ignored p) eqn:N; [|reflexivity]. exfalso. apply I. unfold is_ignored in N. unfold ignored.
  repeat (apply Bool.orb_prop in N; destruct N as [N|N]); apply andb_prop in N; destruct N as (N1 & N2); apply Nat.leb_le in N1; apply Nat.ltb_lt in N2; lia.
Qed.
Lemma other_bytes_count p : (p < 156)%nat -> ~ ignored p ->
  exists d d', openable (disk d) 7%nat d /\ openable (disk d') 7%nat d' /\ List.length d = 200%nat /\ List.length d' = 200%nat /\
    agree_on (fun x => x <> p) d d' /\ ~ same_outcome (open_disk pc [] d) (open_disk pc [] d').
Proof.
  intros P I. pose proof (proj1 (forallb_forall _ _) witnesses p ltac:(apply in_seq; lia)) as W. cbv beta in W.
  rewrite (not_ignored p I) in W. destruct (witness p) as [x|] eqn:E; [|discriminate W].
  assert (P' : (p < 200)%nat) by (clear E W; lia).  generalize (found (open_disk pc []) tries p tries_good P' x). cbv beta.
  intros F. apply F. exact E.
Qed.
