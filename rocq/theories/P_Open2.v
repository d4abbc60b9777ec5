(** Host independence, accessors, search, equality, the global context (C37-C44). *)
From Coq Require Import ZifyBool String.
From Verif Require Import M_Base M_Endian M_IO M_FileMem M_FileFile M_Signature M_SigTables M_Header M_Context M_Profile
  S_Bytes S_Header S_Profile P_Bytes P_Endian P_List P_FileMem P_FileFile P_Header P_Profile P_Open.
Local Open Scope list_scope.
Local Open Scope Z_scope.
#[local] Arguments off_max : simpl never.

(** ** C37 *)
Lemma file_io_same e1 e2 : is64 e1 = is64 e2 -> file_io e1 = file_io e2.
Proof. intros H. unfold file_io, file_tell, as_usize, usize_lim, usize_bits. now rewrite H. Qed.

Lemma read_ok_shape e n s b s' : f_readable s = true -> 0 <= f_pos s -> are_bytes (f_data s) -> (n <> 0)%nat ->
  read_array (file_io e) n s = (Ok b, s') ->
  are_bytes b /\ List.length b = n /\ same_file s' s /\ f_pos s' = f_pos s + Z.of_nat n.
Proof.
  intros Hr Hp HB Hn R. destruct (file_read_cases e n s Hr Hp) as (s1 & SF & _ & C).
  destruct C as [(E & C1 & C2)|[(E & _)|(E & _)]]; rewrite E in R; try discriminate.
  specialize (C1 Hn). injection R as <- <-. split; [now apply are_bytes_part|]. split; [apply part_length; unfold zlen in *; lia|]. auto.
Qed.

Lemma tag_rejected_same e1 e2 hs t : ovf e1 = ovf e2 -> tag_rejected e1 hs t = tag_rejected e2 hs t.
Proof. intros H. unfold tag_rejected, u32_add. now rewrite H. Qed.

Lemma read_tags_same e1 e2 hs n : same_build e1 e2 -> forall t s,
  f_readable s = true -> 0 <= f_pos s -> are_bytes (f_data s) ->
  read_tags e1 (file_io e2) hs n t s = read_tags e2 (file_io e2) hs n t s.
Proof.
  intros (F & O & I). induction n as [|n IH]; intros t s Hr Hp HB; [reflexivity|].
  cbn [read_tags]. destruct (read_array (file_io e2) 12 s) as [[b|er|] s1] eqn:R; try reflexivity.
  destruct (read_ok_shape e2 12 s b s1 Hr Hp HB ltac:(discriminate) R) as (B1 & B2 & (S1 & S2 & S3) & B4).
  rewrite !tag_decodes, F by assumption. rewrite (tag_rejected_same e1 e2 _ _ O).
  destruct (tag_rejected e2 hs _) as [[|]|]; try reflexivity.
  - apply IH; [congruence|lia|congruence].
  - destruct (add_tag t _); [|reflexivity]. apply IH; [congruence|lia|congruence].
Qed.

Lemma read_u32_same e1 e2 s : same_build e1 e2 -> f_readable s = true -> 0 <= f_pos s -> are_bytes (f_data s) ->
  read_u32 e1 (file_io e2) s = read_u32 e2 (file_io e2) s.
Proof.
  intros (F & O & I) Hr Hp HB. unfold read_u32. destruct (read_array (file_io e2) 4 s) as [[b|er|] s1] eqn:R; try reflexivity.
  destruct (read_ok_shape e2 4 s b s1 Hr Hp HB ltac:(discriminate) R) as (B1 & B2 & _). cbn [bind].
  rewrite <- B2. rewrite !adjust_ne_val by exact B1. now rewrite F.
Qed.

Lemma read_header_same e1 e2 w ctx now d sched m : same_build e1 e2 -> are_bytes d -> zlen d <= off_max ->
  let p := with_mode (profile_new now) (mkFile d 0 true false sched) m in
  read_header_thr e1 w (file_io e1) ctx p = read_header_thr e2 w (file_io e2) ctx p.
Proof.
  intros HS HB HL p. pose proof HS as (F & O & I). rewrite (file_io_same e1 e2 I).
  unfold read_header_thr. cbn [p with_mode p_io with_io].
  destruct (read_array (file_io e2) 128 (mkFile d 0 true false sched)) as [[b|er|] s1] eqn:R; try reflexivity.
  destruct (read_ok_shape e2 128 (mkFile d 0 true false sched) b s1 eq_refl (Z.le_refl 0) HB ltac:(discriminate) R) as (B1 & B2 & (S1 & S2 & S3) & B4).
  cbn [f_data f_pos f_readable f_writable] in *.
  rewrite !from_bytes_decodes, F by assumption.
  destruct (negb _); [reflexivity|].
  assert (M128 : 128 <= off_max) by (apply Z.leb_le; reflexivity).
  rewrite reported_size_any by (rewrite ?S1; lia).
  assert (U : as_usize e1 (h_size (decode_header (feat_le e2) b)) = as_usize e2 (h_size (decode_header (feat_le e2) b))).
  { unfold as_usize, usize_lim, usize_bits. now rewrite I. }
  rewrite U. destruct (dt_to_naive _); [|reflexivity].
  unfold read_directory. rewrite S1, S2.
  assert (P : 0 <= f_pos s1 mod usize_lim e2) by (apply Z.mod_pos_bound; destruct (usize_lim_cases e2) as [E|E]; rewrite E; lia).
  rewrite (read_u32_same e1 e2 _ HS); [|reflexivity|exact P|exact HB].
  destruct (read_u32 e2 (file_io e2) _) as [[v|er|] s3] eqn:R3; try reflexivity.
  destruct (_ <? v); [reflexivity|].
  unfold read_u32 in R3. destruct (read_array (file_io e2) 4 _) as [[b3|er|] s3'] eqn:R4; cbn [bind] in R3; try discriminate.
  injection R3 as _ <-.
  destruct (read_ok_shape e2 4 (mkFile d (f_pos s1 mod usize_lim e2) true (f_writable s1) (f_sched s1)) _ _ eq_refl P HB ltac:(discriminate) R4)
    as (_ & _ & (T1 & T2 & T3) & T4). cbn [f_data f_pos f_readable f_writable] in *.
  rewrite (read_tags_same e1 e2 _ _ HS); [reflexivity|congruence|lia|congruence].
Qed.

Lemma sys_read_unreadable s n : f_readable s = false ->
  exists s', sys_read s n = (SysFail, s') /\ f_data s' = f_data s.
Proof. intros H. unfold sys_read. rewrite H. cbn. eexists. split; reflexivity. Qed.
Lemma read_unreadable e sched :
  exists s', read_array (file_io e) 128 (mkFile [] 0 false true sched) = (Err OsError, s') /\ f_data s' = [].
Proof.
  unfold read_array. cbn [io_read file_io]. unfold file_read.
  rewrite Nat.add_1_r.
  change (repeat 0 128) with (0 :: repeat 0 127). cbn [read_exact_loop].
  match goal with |- context[sys_read ?s ?n] => destruct (sys_read_unreadable s n eq_refl) as (s' & E & D); rewrite E end.
  exists s'. auto.
Qed.

Lemma open_same_host e1 e2 w now sched ctx fs q mode d : same_build e1 e2 -> openable fs q d ->
  open_from_file_thr e1 w now sched ctx fs q mode = open_from_file_thr e2 w now sched ctx fs q mode.
Proof.
  intros HS (HC & HR & HB & HL). unfold open_from_file_thr. destruct mode.
  - unfold fs_open. rewrite HC, HR. unfold finish_open. rewrite (read_header_same e1 e2 w ctx now d sched _ HS HB HL). reflexivity.
  - destruct HS as (F & O & I). unfold fs_create. destruct (fs_may_create fs q); [|reflexivity].
    unfold finish_open, read_header_thr. cbn [with_mode with_io p_io]. rewrite (file_io_same e1 e2 I).
    destruct (read_unreadable e2 sched) as (s' & R & _). now rewrite R.
Qed.

(** ** C42 *)
Lemma open_write e w now sched ctx fs q :
  let r := open_from_file_thr e w now sched ctx fs q ModeWrite in
  or_res r = Err OsError /\ or_events r = [] /\ or_ctx r = ctx /\
  (forall x, fs_content (or_fs r) x = if fs_may_create fs q && Nat.eqb x q then Some [] else fs_content fs x).
Proof.
  unfold open_from_file_thr, fs_create. destruct (fs_may_create fs q); [|cbn; auto].
  pose proof (read_unreadable e sched) as R.
  destruct R as (s' & R & D).
  unfold finish_open, read_header_thr. cbn [with_mode with_io p_io]. rewrite R.
  repeat split. intros x. cbn. rewrite D. destruct (Nat.eqb x q); reflexivity.
Qed.

(** ** C38 *)
Lemma pad_nth {A} (d : A) l n : (List.length l <= 100)%nat -> (n < 100)%nat -> nth_error (pad d l) n = Some (nth n l d).
Proof.
  intros HL Hn. unfold pad. destruct (Nat.lt_ge_cases n (List.length l)).
  - rewrite nth_error_app1 by assumption. now apply nth_error_nth'.
  - rewrite nth_error_app2 by assumption. rewrite (nth_overflow l) by assumption.
    rewrite (nth_error_nth' _ d) by (rewrite repeat_length; lia). f_equal. apply nth_repeat.
Qed.
Lemma pad_length {A} (d : A) l : (List.length l <= 100)%nat -> List.length (pad d l) = 100%nat.
Proof. intros H. unfold pad. rewrite app_length, repeat_length. lia. Qed.

Lemma accepted_100 little d len : declared little d <= 100 -> (List.length (accepted little d len) <= 100)%nat.
Proof. intros H. pose proof (accepted_length little d len). lia. Qed.

Lemma tag_signature_spec {H} little d len (io : option H) n : declared little d <= 100 ->
  let p := spec_profile little d len io in
  let a := accepted little d len in
  get_tag_count p = List.length a /\
  get_tag_signature p n =
    (if (n <? List.length a)%nat then Some (nth n (map t_sig a) 0)
     else if (n =? 100)%nat && (List.length a =? 100)%nat then None else Some sig_default).
Proof.
  intros HD p a. pose proof (accepted_100 little d len HD) as LA. fold a in LA.
  split; [reflexivity|]. unfold get_tag_signature. cbn [p spec_profile p_tag_count p_tag_names]. fold a.
  destruct (List.length a <? n)%nat eqn:E1.
  - replace (n <? List.length a)%nat with false by lia.
    replace ((n =? 100)%nat && (List.length a =? 100)%nat) with false by lia. reflexivity.
  - destruct (n <? List.length a)%nat eqn:E2.
    + rewrite pad_nth by (rewrite ?map_length; lia). f_equal. apply nth_indep. rewrite map_length. lia.
    + assert (n = List.length a) by lia. destruct ((n =? 100)%nat && (List.length a =? 100)%nat) eqn:E3.
      * apply nth_error_None. rewrite pad_length by (rewrite map_length; lia). lia.
      * rewrite pad_nth by (rewrite ?map_length; lia). f_equal. apply nth_overflow. rewrite map_length. lia.
Qed.

(** ** C39, C40, C41 *)
Lemma search_from_app sig b : forall a X,
  search_one_from (map t_sig (a ++ b) ++ X) sig (List.length b) (List.length a) =
  Some (match find (fun x => sig =? t_sig (snd x)) (combine (seq (List.length a) (List.length b)) b) with
        | Some (i, _) => Some i | None => None end).
Proof.
  induction b as [|x b IH]; intros a X; [reflexivity|].
  cbn [List.length search_one_from].
  assert (N : nth_error (map t_sig (a ++ x :: b) ++ X) (List.length a) = Some (t_sig x)).
  { rewrite map_app. cbn [map]. rewrite <- app_assoc. cbn [app]. rewrite <- (map_length t_sig a). apply nth_error_mid. }
  rewrite N. unfold sig_eqb. cbn [seq combine find snd].
  destruct (sig =? t_sig x); [reflexivity|].
  specialize (IH (a ++ [x]) X). rewrite <- app_assoc in IH. cbn [app] in IH.
  replace (List.length (a ++ [x])) with (S (List.length a)) in IH by (rewrite app_length; cbn; lia). exact IH.
Qed.

Lemma find_first sig b : forall k,
  match find (fun x => sig =? t_sig (snd x)) (combine (seq k (List.length b)) b) with
  | Some (i, _) => (k <= i)%nat /\ first_match sig b (Some (i - k)%nat)
  | None => first_match sig b None
  end.
Proof.
  induction b as [|x b IH]; intros k; cbn [List.length seq combine find snd].
  - apply FMNone. intros t [].
  - destruct (sig =? t_sig x) eqn:E.
    + split; [lia|]. rewrite Nat.sub_diag. apply (FMSome _ _ _ x); [reflexivity|lia|]. intros; lia.
    + specialize (IH (S k)). destruct (find _ _) as [[i t]|].
      * destruct IH as [H1 H2]. split; [lia|]. replace (i - k)%nat with (S (i - S k)) by lia.
        inversion H2 as [? t0 N1 N2 N3|]; subst. apply (FMSome _ _ _ t0); [exact N1|reflexivity|].
        intros [|j] t' Hj Ht'; cbn in Ht'; [injection Ht' as <-; lia|]. apply (N3 j t'); [lia|exact Ht'].
      * inversion IH as [|N]; subst. apply FMNone. intros t [<-|Ht]; [lia|auto].
Qed.

Lemma search_one_spec {H} little d len (io : option H) sig : exists r,
  search_one_tag (spec_profile little d len io) sig = Some r /\ first_match sig (accepted little d len) r.
Proof.
  unfold search_one_tag. cbn [spec_profile p_tag_names p_tag_count]. set (a := accepted little d len).
  unfold pad. match goal with |- context[map t_sig a ++ ?X] => pose proof (search_from_app sig a [] X) as S end.
  cbn [app List.length] in S. eexists. split; [exact S|].
  pose proof (find_first sig a 0) as F. destruct (find _ _) as [[i t]|]; [|exact F].
  destruct F as [_ F]. now rewrite Nat.sub_0_r in F.
Qed.

Lemma first_match_fun sig a r r' : first_match sig a r -> first_match sig a r' -> r = r'.
Proof.
  intros F F'. inversion F as [i t N1 N2 N3|N]; subst; inversion F' as [i' t' N1' N2' N3'|N']; subst; try reflexivity.
  - f_equal. destruct (Nat.lt_trichotomy i i') as [L|[L|L]]; [|exact L|].
    + exfalso. exact (N3' i t L N1 eq_refl).
    + exfalso. exact (N3 i' t' L N1' N2').
  - exfalso. apply (N' t); [eapply nth_error_In; eassumption|first [assumption|reflexivity]].
  - exfalso. apply (N t'); [eapply nth_error_In; eassumption|first [assumption|reflexivity]].
Qed.

Lemma search_direct {H} little d len (io : option H) sig r fuel : first_match sig (accepted little d len) r ->
  search_tag (S fuel) (spec_profile little d len io) sig false = Done r.
Proof.
  intros F. cbn [search_tag]. unfold search_tag_step.
  destruct (search_one_spec little d len io sig) as (r' & E & F'). rewrite E.
  rewrite (first_match_fun _ _ _ _ F F'). destruct r'; reflexivity.
Qed.

(** Links, entry by entry. *)
Lemma links_nth a j : (j < List.length a)%nat -> nth_error (links a) j =
  Some (if existsb (same_data (nth j a (mkTag 0 0 0))) (skipn (S j) a) then Some (t_sig (nth j a (mkTag 0 0 0))) else None).
Proof.
  revert j. induction a as [|x a IH]; intros j Hj; [cbn in Hj; lia|].
  destruct j; [reflexivity|]. cbn [links nth_error nth]. rewrite IH by (cbn in Hj; lia). reflexivity.
Qed.
Lemma later_same a j t : nth_error a j = Some t ->
  (existsb (same_data t) (skipn (S j) a) = true <->
   exists k t', (j < k)%nat /\ nth_error a k = Some t' /\ t_offset t' = t_offset t /\ t_size t' = t_size t).
Proof.
  intros N. rewrite existsb_exists. split.
  - intros (t' & I & E). apply In_nth_error in I as (k & K).
    assert (K' : nth_error a (S j + k) = Some t').
    { rewrite <- K. clear. revert a. induction (S j) as [|m IH]; intros a; [reflexivity|].
      destruct a; [cbn; now destruct k|]. cbn. apply IH. }
    exists (S j + k)%nat, t'. unfold same_data in E. repeat split; try assumption; lia.
  - intros (k & t' & Hk & K & E1 & E2). exists t'. split.
    + apply (nth_error_In _ (k - S j)). rewrite <- K. replace k with (S j + (k - S j))%nat at 2 by lia.
      generalize (k - S j)%nat as m. clear. intros m. revert a. induction (S j) as [|n IH]; intros a; [reflexivity|].
      destruct a; [cbn; now destruct m|]. cbn. apply IH.
    + unfold same_data. lia.
Qed.

Lemma linked_spec {H} little d len (io : option H) j t :
  nth_error (accepted little d len) j = Some t ->
  nth_error (p_tag_linked (spec_profile little d len io)) j =
  Some (if existsb (same_data t) (skipn (S j) (accepted little d len)) then Some (t_sig t) else None).
Proof.
  intros N. cbn [spec_profile p_tag_linked]. set (a := accepted little d len) in *.
  assert (L : (j < List.length a)%nat) by (apply nth_error_Some; congruence).
  unfold pad. rewrite nth_error_app1 by (now rewrite links_length).
  rewrite links_nth by exact L. now rewrite (nth_error_nth _ _ _ N).
Qed.
Lemma linked_beyond {H} little d len (io : option H) j : declared little d <= 100 ->
  (List.length (accepted little d len) <= j < 100)%nat ->
  nth_error (p_tag_linked (spec_profile little d len io)) j = Some None.
Proof.
  intros HD Hj. cbn [spec_profile p_tag_linked]. pose proof (accepted_100 little d len HD).
  rewrite pad_nth by (rewrite ?links_length; lia). f_equal. apply nth_overflow. rewrite links_length. lia.
Qed.

Lemma search_follow {H} little d len (io : option H) sig r : first_match sig (accepted little d len) r ->
  let p := spec_profile little d len io in
  match r with
  | None => forall fuel, search_tag (S fuel) p sig true = Done None
  | Some i =>
      (nth_error (p_tag_linked p) i = Some None -> forall fuel, search_tag (S fuel) p sig true = Done (Some i)) /\
      (nth_error (p_tag_linked p) i <> Some None -> forall fuel, search_tag fuel p sig true = Running sig)
  end.
Proof.
  intros F p. destruct (search_one_spec little d len io sig) as (r' & E & F').
  pose proof (first_match_fun _ _ _ _ F F') as <-. fold p in E.
  destruct r as [i|].
  - inversion F as [? t N1 N2 N3|]; subst.
    pose proof (linked_spec little d len io i t N1) as L. fold p in L. split; intros HN.
    + intros fuel. cbn [search_tag]. unfold search_tag_step. rewrite E. cbn [negb]. now rewrite HN.
    + induction fuel as [|fuel IH]; [reflexivity|]. cbn [search_tag]. unfold search_tag_step. rewrite E. cbn [negb].
      rewrite L in *. destruct (existsb _ _); [exact IH|]. exfalso. now apply HN.
  - intros fuel. cbn [search_tag]. unfold search_tag_step. now rewrite E.
Qed.

(** ** C43 *)
Lemma list_eqb_iff {A} (eqb : A -> A -> bool) : (forall a b, eqb a b = true <-> a = b) ->
  forall l m, list_eqb eqb l m = true <-> l = m.
Proof.
  intros HE. induction l as [|a l IH]; intros [|b m]; cbn; try (split; congruence).
  rewrite andb_true_iff, HE, IH. split; [intros [-> ->]; reflexivity|intros [= -> ->]; auto].
Qed.
Lemma option_eqb_iff {A} (eqb : A -> A -> bool) : (forall a b, eqb a b = true <-> a = b) ->
  forall a b, option_eqb eqb a b = true <-> a = b.
Proof. intros HE [a|] [b|]; cbn; try (split; congruence). rewrite HE. split; congruence. Qed.
Lemma nd_eqb_iff a b : nd_eqb a b = true <-> a = b.
Proof.
  unfold nd_eqb. rewrite !andb_true_iff, !Z.eqb_eq. destruct a, b; cbn. split.
  - intros ((((((-> & ->) & ->) & ->) & ->) & ->) & ->). reflexivity.
  - intros [= -> -> -> -> -> -> ->]. repeat split.
Qed.
Lemma profile_eqb_iff {H} (a b : Profile H) : profile_eqb a b = true <-> without_io a = without_io b.
Proof.
  unfold profile_eqb, without_io.
  assert (SE : forall x y, sig_eqb x y = true <-> x = y) by (intros; apply Z.eqb_eq).
  rewrite !andb_true_iff, nd_eqb_iff, !SE, ?Z.eqb_eq, Nat.eqb_eq.
  rewrite !(list_eqb_iff Z.eqb Z.eqb_eq), ?(list_eqb_iff sig_eqb SE), (list_eqb_iff _ (option_eqb_iff sig_eqb SE)).
  rewrite (list_eqb_iff Bool.eqb Bool.eqb_true_iff), Bool.eqb_true_iff.
  destruct a, b; cbn. split.
  - intros H0. decompose [and] H0. subst. reflexivity.
  - intros [= -> -> -> -> -> -> -> -> -> -> -> -> -> -> -> -> -> -> ->]. repeat split.
Qed.
