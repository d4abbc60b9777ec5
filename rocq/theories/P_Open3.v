(** The statements about opened profiles, and histories of global opens (C32-C44). *)
From Coq Require Import ZifyBool String.
From Verif Require Import M_Base M_Endian M_IO M_FileMem M_FileFile M_Signature M_SigTables M_Header M_Context M_Profile
  S_Bytes S_Header S_Profile P_Bytes P_Endian P_List P_FileMem P_FileFile P_Header P_Profile P_Open P_Open2.
Local Open Scope list_scope.
Local Open Scope Z_scope.
#[local] Arguments off_max : simpl never.

Lemma verdict_unique e d : are_bytes d -> Z.of_nat (List.length d) <= off_max ->
  exists v, judged (feat_le e) (ovf e) d v /\ forall v', judged (feat_le e) (ovf e) d v' -> v' = v.
Proof.
  intros HB HL. destruct (judged_total e d HB HL) as (v & J). exists v. split; [exact J|].
  intros v' J'. exact (judged_fun _ _ _ _ _ HB J' J).
Qed.

Lemma open_missing e w now sched ctx fs q : 
  (fs_content fs q = None -> open_from_file_thr e w now sched ctx fs q ModeRead = mkOpen (Err NotFound) ctx [] fs) /\
  (fs_content fs q <> None -> fs_may_read fs q = false ->
   open_from_file_thr e w now sched ctx fs q ModeRead = mkOpen (Err OsError) ctx [] fs).
Proof.
  unfold open_from_file_thr, fs_open. split; [intros ->; reflexivity|].
  intros H ->. destruct (fs_content fs q); [reflexivity|]. now contradict H.
Qed.

Lemma open_success_iff e w now sched ctx fs q d : openable fs q d -> no_fail sched ->
  ((exists p, or_res (open_from_file_thr e w now sched ctx fs q ModeRead) = Ok p) <->
   132 + 12 * declared (feat_le e) d <= Z.of_nat (List.length d) /\
   declared (feat_le e) d <= 100 /\
   h_magic (decode_header (feat_le e) d) = 1633907568 /\
   real_dt (h_date (decode_header (feat_le e) d)) /\
   (ovf e = true -> Forall (fun t => last_byte t < 4294967296) (entries (feat_le e) d))).
Proof.
  intros HO NF. rewrite (open_ok_iff e w now sched ctx fs q d HO NF), judged_opens_iff.
  assert (R : (forall i, (i < Z.to_nat (declared (feat_le e) d))%nat -> overflowing (feat_le e) d i = false) <->
    Forall (fun t => last_byte t < 4294967296) (entries (feat_le e) d)).
  { unfold entries, overflowing. rewrite Forall_map, Forall_forall. split; intros H i Hi.
    - apply in_seq in Hi. specialize (H i ltac:(lia)). lia.
    - specialize (H i ltac:(apply in_seq; lia)). lia. }
  tauto.
Qed.

Lemma listed_fields e w now sched ctx fs q d p : openable fs q d ->
  or_res (open_from_file_thr e w now sched ctx fs q ModeRead) = Ok p ->
  declared (feat_le e) d <= 100 /\
  exists io, p = spec_profile (feat_le e) d (Z.of_nat (List.length d) mod usize_lim e) (Some io).
Proof.
  intros HO HP. destruct (opened e w now sched ctx fs q d p HO HP) as (J & sched' & E).
  apply judged_opens_iff in J. split; [tauto|]. eexists. exact E.
Qed.

Lemma filter_all {A} (f : A -> bool) l : Forall (fun x => f x = true) (filter f l).
Proof. apply Forall_forall. intros x H. now apply filter_In in H. Qed.

Lemma tags_inside e w now sched ctx fs q d p : openable fs q d ->
  or_res (open_from_file_thr e w now sched ctx fs q ModeRead) = Ok p ->
  exists l : list TagEntry,
    (p_tag_count p = List.length l /\ (List.length l <= 100)%nat /\ Z.of_nat (List.length l) <= declared (feat_le e) d) /\
    (firstn (List.length l) (p_tag_names p) = map t_sig l /\
     firstn (List.length l) (p_tag_offsets p) = map t_offset l /\
     firstn (List.length l) (p_tag_sizes p) = map t_size l) /\
    Forall (fun t => t_offset t + t_size t <= word (feat_le e) d 0 4 /\ t_offset t + t_size t <= Z.of_nat (List.length d)) l /\
    (Z.of_nat (List.length d) < usize_lim e ->
     l = filter (fun t => t_offset t + t_size t <=? Z.min (word (feat_le e) d 0 4) (Z.of_nat (List.length d)))
                (entries (feat_le e) d)).
Proof.
  intros HO HP. destruct (listed_fields _ _ _ _ _ _ _ _ _ HO HP) as (HD & io & ->).
  exists (accepted (feat_le e) d (Z.of_nat (List.length d) mod usize_lim e)).
  pose proof (accepted_length (feat_le e) d (Z.of_nat (List.length d) mod usize_lim e)) as AL.
  destruct HO as (_ & _ & HB & _). pose proof (declared_nonneg (feat_le e) d HB).
  assert (FP : forall A (dd : A) l n, n = List.length l -> firstn n (pad dd l) = l).
  { intros A dd l n ->. unfold pad. rewrite firstn_app, Nat.sub_diag, firstn_all. cbn. apply app_nil_r. }
  assert (UL : 0 < usize_lim e) by (destruct (usize_lim_cases e) as [E|E]; rewrite E; lia).
  split; [repeat split; try reflexivity; lia|].
  split; [repeat split; apply FP; now rewrite map_length|]. split.
  - eapply Forall_impl; [|apply filter_all]. intros t Ht. unfold in_file, limit, last_byte in Ht.
    pose proof (Z.mod_le (Z.of_nat (List.length d)) (usize_lim e) ltac:(lia) UL). lia.
  - intros HL. rewrite Z.mod_small by lia. reflexivity.
Qed.

Lemma handler_calls e w now sched ctx fs q d : openable fs q d ->
  let r := open_from_file_thr e w now sched ctx fs q ModeRead in
  (or_events r = [] /\ or_ctx r = ctx) \/
  (or_res r = Err InvalidData /\ exists code t, or_events r = [(code, t)] /\ or_ctx r = call_handler w ctx code t /\
    ((h_magic (decode_header (feat_le e) d) <> 1633907568 /\ code = EC_BadSignature /\
      t = text "not an ICC profile, invalid signature") \/
     (h_magic (decode_header (feat_le e) d) = 1633907568 /\ 100 < declared (feat_le e) d /\ code = EC_Range /\
      t = text "Too many tags " ++ decimal (declared (feat_le e) d)))).
Proof.
  intros HO r. destruct (open_read_cases e w now sched ctx fs q d HO) as (_ & [(v & J & O)|(_ & N1 & N2 & _)]); [|left; auto].
  fold r in O. inversion J; subst v; cbn [outcome_is] in O; try (left; tauto); try (left; destruct O as (_ & O1 & O2); auto; fail).
  - right. destruct O as (O1 & O2 & O3). split; [exact O1|]. do 2 eexists. split; [exact O2|]. split; [exact O3|]. left. auto.
  - right. destruct O as (O1 & O2 & O3). split; [exact O1|]. do 2 eexists. split; [exact O2|]. split; [exact O3|]. right. auto.
Qed.

Lemma bad_magic_reported e w now sched ctx fs q d : openable fs q d -> no_fail sched ->
  (128 <= List.length d)%nat -> h_magic (decode_header (feat_le e) d) <> 1633907568 ->
  let r := open_from_file_thr e w now sched ctx fs q ModeRead in
  or_res r = Err InvalidData /\ or_events r = [(EC_BadSignature, text "not an ICC profile, invalid signature")] /\
  or_ctx r = call_handler w ctx EC_BadSignature (text "not an ICC profile, invalid signature").
Proof. intros HO NF HL HM. exact (open_read_judged e w now sched ctx fs q d _ HO NF (JMagic _ _ _ HL HM)). Qed.
Lemma too_many_reported e w now sched ctx fs q d : openable fs q d -> no_fail sched ->
  (132 <= List.length d)%nat -> h_magic (decode_header (feat_le e) d) = 1633907568 ->
  real_dt (h_date (decode_header (feat_le e) d)) -> 100 < declared (feat_le e) d ->
  let t := text "Too many tags " ++ decimal (declared (feat_le e) d) in
  let r := open_from_file_thr e w now sched ctx fs q ModeRead in
  or_res r = Err InvalidData /\ or_events r = [(EC_Range, t)] /\ or_ctx r = call_handler w ctx EC_Range t.
Proof. intros HO NF HL HM HR HD. exact (open_read_judged e w now sched ctx fs q d _ HO NF (JTooMany _ _ _ HL HM HR HD)). Qed.

Lemma open_local e w now now' sched sched' ctx fs fs' q q' d d' :
  openable fs q d -> openable fs' q' d' -> no_fail sched -> no_fail sched' ->
  List.length d = List.length d' ->
  firstn (directory_end (feat_le e) d) d = firstn (directory_end (feat_le e) d) d' ->
  same_outcome (open_from_file_thr e w now sched ctx fs q ModeRead)
               (open_from_file_thr e w now' sched' ctx fs' q' ModeRead).
Proof.
  intros HO HO' NF NF' L E. pose proof HO as (_ & _ & HB & HL).
  destruct (judged_total e d HB HL) as (v & J).
  pose proof (open_read_judged e w now sched ctx fs q d v HO NF J) as O.
  pose proof (agree_judged (feat_le e) d d' HB L E (ovf e) v J) as J'.
  pose proof (open_read_judged e w now' sched' ctx fs' q' d' v HO' NF' J') as O'.
  unfold same_outcome. destruct v; cbn [outcome_is] in O, O'.
  - destruct O as (O1 & O2 & s & O3), O' as (O1' & O2' & s' & O3'). rewrite O1, O1', O2, O2', O3, O3'.
    repeat split. rewrite <- L.
    match goal with |- without_io (spec_profile ?li ?dd ?len ?io1) = without_io (spec_profile _ _ _ ?io2) =>
      transitivity (without_io (spec_profile li dd len io2)); [reflexivity|] end.
    f_equal. apply agree_profile; try assumption. apply judged_opens_iff in J. tauto.
  - destruct O as (O1 & O2 & O3), O' as (O1' & O2' & O3'). rewrite O1, O1', O2, O2', O3, O3'. auto.
  - destruct O as (O1 & O2 & O3), O' as (O1' & O2' & O3'). rewrite O1, O1', O2, O2', O3, O3'. auto.
Qed.

Lemma read_only e w now sched ctx fs q d : openable fs q d ->
  forall x, fs_content (or_fs (open_from_file_thr e w now sched ctx fs q ModeRead)) x = fs_content fs x.
Proof. intros HO. exact (proj1 (open_read_cases e w now sched ctx fs q d HO)). Qed.

(** Accessors *)
Lemma opened_tag_signature e w now sched ctx fs q d p n : openable fs q d ->
  or_res (open_from_file_thr e w now sched ctx fs q ModeRead) = Ok p ->
  get_tag_count p = List.length (listed e d) /\
  get_tag_signature p n =
    (if (n <? get_tag_count p)%nat then Some (nth n (map t_sig (listed e d)) 0)
     else if (n =? 100)%nat && (get_tag_count p =? 100)%nat then None else Some 538976288).
Proof.
  intros HO HP. destruct (listed_fields _ _ _ _ _ _ _ _ _ HO HP) as (HD & io & ->).
  destruct (tag_signature_spec (feat_le e) d (Z.of_nat (List.length d) mod usize_lim e) (Some io) n HD) as (C & S).
  split; [exact C|]. rewrite S. reflexivity.
Qed.

Lemma opened_search e w now sched ctx fs q d p sig : openable fs q d ->
  or_res (open_from_file_thr e w now sched ctx fs q ModeRead) = Ok p ->
  exists r, first_match sig (listed e d) r /\ forall fuel, search_tag (S fuel) p sig false = Done r.
Proof.
  intros HO HP. destruct (listed_fields _ _ _ _ _ _ _ _ _ HO HP) as (HD & io & ->).
  destruct (search_one_spec (feat_le e) d (Z.of_nat (List.length d) mod usize_lim e) (Some io) sig) as (r & _ & F).
  exists r. split; [exact F|]. intros fuel. now apply search_direct.
Qed.

Lemma opened_search_follow e w now sched ctx fs q d p sig : openable fs q d ->
  or_res (open_from_file_thr e w now sched ctx fs q ModeRead) = Ok p ->
  (first_match sig (listed e d) None -> forall fuel, search_tag (S fuel) p sig true = Done None) /\
  (forall i t, first_match sig (listed e d) (Some i) -> nth_error (listed e d) i = Some t ->
    ((exists k t', (i < k)%nat /\ nth_error (listed e d) k = Some t' /\ t_offset t' = t_offset t /\ t_size t' = t_size t) ->
     forall fuel, search_tag fuel p sig true = Running sig) /\
    (~ (exists k t', (i < k)%nat /\ nth_error (listed e d) k = Some t' /\ t_offset t' = t_offset t /\ t_size t' = t_size t) ->
     forall fuel, search_tag (S fuel) p sig true = Done (Some i))).
Proof.
  intros HO HP. destruct (listed_fields _ _ _ _ _ _ _ _ _ HO HP) as (HD & io & ->). fold (listed e d).
  split; [intros F; exact (search_follow _ _ _ (Some io) _ _ F)|].
  intros i t F N. destruct (search_follow (feat_le e) d _ (Some io) _ _ F) as (S1 & S2).
  pose proof (linked_spec (feat_le e) d (Z.of_nat (List.length d) mod usize_lim e) (Some io) i t N) as L.
  pose proof (later_same _ _ _ N) as LS. unfold listed in LS. 
  destruct (existsb _ _) eqn:EX.
  - split; [intros _; apply S2; rewrite L; discriminate|]. intros NE. exfalso. apply NE. now apply LS.
  - split; [intros E; apply LS in E; discriminate|]. intros _. apply S1. exact L.
Qed.

Lemma opened_links e w now sched ctx fs q d p : openable fs q d ->
  or_res (open_from_file_thr e w now sched ctx fs q ModeRead) = Ok p ->
  (forall j t, nth_error (listed e d) j = Some t ->
    exists link, nth_error (p_tag_linked p) j = Some link /\ (link = None \/ link = Some (t_sig t)) /\
      (link <> None <->
       exists k t', (j < k)%nat /\ nth_error (listed e d) k = Some t' /\ t_offset t' = t_offset t /\ t_size t' = t_size t)) /\
  (forall j, (List.length (listed e d) <= j < 100)%nat -> nth_error (p_tag_linked p) j = Some None).
Proof.
  intros HO HP. destruct (listed_fields _ _ _ _ _ _ _ _ _ HO HP) as (HD & io & ->). split.
  - intros j t N. pose proof (later_same _ _ _ N) as LS. 
    pose proof (linked_spec (feat_le e) d (Z.of_nat (List.length d) mod usize_lim e) (Some io) j t N) as L.
    fold (listed e d) in L. destruct (existsb _ _); eexists; (split; [exact L|]).
    + split; [auto|]. rewrite <- LS. split; [reflexivity|discriminate].
    + split; [auto|]. rewrite <- LS. split; [congruence|discriminate].
  - intros j Hj. now apply linked_beyond.
Qed.

(** ** Equality *)
Lemma equality_facts {H} (a b c : Profile H) :
  (profile_eqb a b = true <-> without_io a = without_io b) /\
  profile_eqb a a = true /\ profile_eqb a b = profile_eqb b a /\
  (profile_eqb a b = true -> profile_eqb b c = true -> profile_eqb a c = true).
Proof.
  split; [apply profile_eqb_iff|]. split; [now apply profile_eqb_iff|]. split.
  - apply eq_true_iff_eq. rewrite !profile_eqb_iff. split; congruence.
  - rewrite !profile_eqb_iff. congruence.
Qed.

(** ** Global opens *)
Lemma read_header_quiet {H} e w (h : IOHandler H) c p : c_error_handler c = O -> o_ctx (read_header_thr e w h c p) = c.
Proof.
  intros HC. unfold read_header_thr, read_directory, signal_error. rewrite HC.
  repeat match goal with
  | |- context[match ?x with _ => _ end] => destruct x
  end; reflexivity.
Qed.
Lemma open_quiet e w now sched c fs q mode : c_error_handler c = O ->
  or_ctx (open_from_file_thr e w now sched c fs q mode) = c.
Proof.
  intros HC. unfold open_from_file_thr, finish_open. destruct mode.
  - destruct (fs_open fs q sched); try reflexivity. cbn [or_ctx]. now apply read_header_quiet.
  - destruct (fs_create fs q sched) as [[f|er|] fs1]; try reflexivity. cbn [or_ctx]. now apply read_header_quiet.
Qed.

Lemma past_state e w past g fs : past_calls e w past g fs ->
  g_ctx g = context_new None /\ (g_poisoned g = true <-> In Panic past).
Proof.
  induction 1 as [fs|past g fs now sched q mode r g' ev fs' H (IH1 & IH2) E|past g fs fs' H IH]; [|clear H|exact IH].
  - split; [reflexivity|]. split; [discriminate|intros []].
  - unfold open_from_file in E. destruct (g_poisoned g) eqn:P.
    + injection E as <- <- <- <-. split; [exact IH1|]. split; [intros _; now left|intros _; exact P].
    + injection E as <- <- <- <-. cbn [g_ctx g_poisoned]. rewrite IH1. split; [now apply open_quiet|]. 
      assert (N : ~ In Panic past) by (intros I; apply IH2 in I; discriminate).
      cbn [In]. destruct (or_res _); (split; [intros; first [discriminate|now left]|]); intros [I|I];
        first [discriminate|contradiction|reflexivity].
Qed.

Lemma after_history e w past g fs now sched q mode : past_calls e w past g fs ->
  (In Panic past -> open_from_file e w now sched g fs q mode = (Panic, g, [], fs)) /\
  (~ In Panic past ->
   let o := open_from_file_thr e w now sched (context_new None) fs q mode in
   open_from_file e w now sched g fs q mode =
   (or_res o, mkGlobal (context_new None) (match or_res o with Panic => true | _ => false end), or_events o, or_fs o)).
Proof.
  intros H. destruct (past_state e w past g fs H) as (P1 & P2). unfold open_from_file. split; intros I.
  - apply P2 in I. now rewrite I.
  - destruct (g_poisoned g); [exfalso; tauto|]. cbv zeta. rewrite P1, open_quiet by reflexivity. reflexivity.
Qed.

(** ** Panics, spelled out *)
Lemma panics_when little checks d : judged little checks d Panics <->
  (128 <= List.length d)%nat /\ h_magic (decode_header little d) = 1633907568 /\
  (~ real_dt (h_date (decode_header little d)) \/
   (checks = true /\ real_dt (h_date (decode_header little d)) /\ (132 <= List.length d)%nat /\ declared little d <= 100 /\
    exists i, (i < readable_entries little d)%nat /\ 4294967296 <= last_byte (entry little d i))).
Proof.
  rewrite judged_panics_iff. unfold overflowing.
  assert (X : (exists i, (i < readable_entries little d)%nat /\ (4294967296 <=? last_byte (entry little d i)) = true) <->
    (exists i, (i < readable_entries little d)%nat /\ 4294967296 <= last_byte (entry little d i))).
  { split; intros (i & A & B); exists i; (split; [exact A|]); apply Z.leb_le; exact B. }
  tauto.
Qed.
Lemma panic_without_failures e w now sched ctx fs q d : openable fs q d ->
  or_res (open_from_file_thr e w now sched ctx fs q ModeRead) = Panic ->
  or_res (open_from_file_thr e w now [] ctx fs q ModeRead) = Panic.
Proof.
  intros HO HP. apply (open_panics_iff e w now [] ctx fs q d HO); [constructor|]. exact (open_panics_any e w now sched ctx fs q d HO HP).
Qed.

Lemma any_open_permissions e w now sched ctx fs q mode :
  let r := open_from_file_thr e w now sched ctx fs q mode in
  fs_may_read (or_fs r) = fs_may_read fs /\ fs_may_create (or_fs r) = fs_may_create fs /\
  (mode = ModeRead -> (forall d, fs_content fs q = Some d -> are_bytes d /\ Z.of_nat (List.length d) <= 9223372036854775807) ->
   forall x, fs_content (or_fs r) x = fs_content fs x).
Proof.
  cbv zeta. destruct mode.
  - destruct (fs_content fs q) as [d|] eqn:C; [destruct (fs_may_read fs q) eqn:M|].
    + split; [|split; [|intros _ H; apply (read_only e w now sched ctx fs q d); destruct (H d eq_refl); unfold openable; tauto]].
      all: unfold open_from_file_thr, fs_open; rewrite C, M; unfold finish_open; cbn [or_fs]; destruct (p_io _); reflexivity.
    + unfold open_from_file_thr, fs_open. rewrite C, M. cbn [or_fs]. repeat split.
    + unfold open_from_file_thr, fs_open. rewrite C. cbn [or_fs]. repeat split.
  - split; [|split; [|discriminate]]; unfold open_from_file_thr, fs_create; destruct (fs_may_create fs q); cbn [or_fs]; try reflexivity.
    all: unfold finish_open; cbn [or_fs]; destruct (p_io _); reflexivity.
Qed.
