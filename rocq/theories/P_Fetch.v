(** Reading on through the handler of an opened profile: lemmas behind C109. *)
From Coq Require Import ZifyBool String.
From Verif Require Import M_Base M_Endian M_IO M_FileMem M_FileFile M_Signature M_SigTables M_Header M_Context M_Profile
  S_Bytes S_Header S_Profile S_File S_Fetch S_Search P_Bytes P_Endian P_List P_FileMem P_FileFile P_Header P_Profile P_Open P_Open2 P_Open3.
Local Open Scope list_scope.
Local Open Scope Z_scope.
#[local] Arguments off_max : simpl never.

(** What every call leaves alone on a file opened for reading only. *)
Definition kept (d : list Z) (P : Prop) (s : File) : Prop :=
  f_data s = d /\ f_readable s = true /\ f_writable s = false /\ 0 <= f_pos s <= off_max /\ (P -> no_fail (f_sched s)).

Section Kept.
  Context (e : env) (d : list Z) (P : Prop) (HL : zlen d <= off_max).

  Lemma kept_read s buf : kept d P s -> kept d P (snd (fst (file_read s buf))).
  Proof.
    intros (K1 & K2 & K3 & K4 & K5).
    destruct (file_read_gen s buf K2 ltac:(lia)) as (r & s' & buf' & k & E & E1 & E2 & E3 & E4 & E5 & E6 & E7 & E8 & _).
    rewrite E. cbn [fst snd]. unfold reads_of in E6. rewrite firstn_length, skipn_length, K1 in E6. unfold zlen in *.
    repeat split; [congruence|exact E2|congruence|lia|lia|auto].
  Qed.
  Lemma kept_array n s : kept d P s -> kept d P (snd (read_array (file_io e) n s)).
  Proof.
    intros K. pose proof (kept_read s (repeat 0 n) K) as K'. unfold read_array. cbn [io_read file_io].
    destruct (file_read s (repeat 0 n)) as [[[[]|er|] s'] b]; exact K'.
  Qed.
  Lemma kept_seek s pos : kept d P s -> call_ok (CSeek pos) -> kept d P (snd (file_seek s pos)).
  Proof.
    intros (K1 & K2 & K3 & K4 & K5) C. unfold file_seek.
    assert (G : forall p, 0 <= p <= off_max -> kept d P (mkFile (f_data s) p (f_readable s) (f_writable s) (f_sched s))).
    { intros p Hp. repeat split; cbn; first [assumption|lia]. }
    assert (S0 : kept d P s) by (repeat split; first [assumption|lia]).
    destruct pos as [n|n|n]; cbn in C.
    - destruct (Z.ltb_spec off_max n); [exact S0|]. apply G. lia.
    - destruct (Z.ltb_spec (zlen (f_data s) + n) 0); [exact S0|].
      destruct (Z.ltb_spec off_max (zlen (f_data s) + n)); [exact S0|]. apply G. lia.
    - destruct (Z.ltb_spec (f_pos s + n) 0); [exact S0|].
      destruct (Z.ltb_spec off_max (f_pos s + n)); [exact S0|]. apply G. lia.
  Qed.
  Lemma kept_size s : kept d P s -> kept d P (snd (reported_size (file_io e) s)).
  Proof.
    intros (K1 & K2 & K3 & K4 & K5). rewrite reported_size_any by (rewrite ?K1; assumption).
    assert (U : 0 < usize_lim e) by (destruct (usize_lim_cases e) as [E|E]; rewrite E; lia).
    pose proof (Z.mod_pos_bound (f_pos s) (usize_lim e) U). pose proof (Z.mod_le (f_pos s) (usize_lim e) ltac:(lia) U).
    repeat split; cbn; first [assumption|lia].
  Qed.
  Lemma kept_write s bs : kept d P s -> kept d P (snd (file_write s bs)).
  Proof.
    intros (K1 & K2 & K3 & K4 & K5). assert (S0 : kept d P s) by (repeat split; first [assumption|lia]).
    unfold file_write. rewrite Nat.add_1_r. destruct bs as [|b bs]; [exact S0|].
    cbn [file_write_loop]. unfold sys_write. rewrite K3. cbn [negb snd].
    repeat split; cbn; try assumption; try lia. intros X. apply no_fail_tail. auto.
  Qed.
  Lemma kept_call c s : kept d P s -> call_ok c -> kept d P (snd (call_on (file_io e) c s)).
  Proof.
    intros K C. destruct c as [n|bs|pos| |]; cbn [call_on].
    - pose proof (kept_array n s K). now destruct (read_array (file_io e) n s).
    - pose proof (kept_write s bs K). cbn [io_write file_io]. now destruct (file_write s bs).
    - pose proof (kept_seek s pos K C). cbn [io_seek file_io]. now destruct (file_seek s pos).
    - exact K.
    - pose proof (kept_size s K). now destruct (reported_size (file_io e) s).
  Qed.
  Lemma kept_calls cs : Forall call_ok cs -> forall s, kept d P s -> kept d P (snd (run_calls (call_on (file_io e)) cs s)).
  Proof.
    induction 1 as [|c cs C _ IH]; intros s K; [exact K|]. cbn [run_calls].
    pose proof (kept_call c s K C) as K'. destruct (call_on (file_io e) c s) as [[a|er|] s']; cbn [snd] in K'; [| |exact K'];
      specialize (IH s' K'); now destruct (run_calls (call_on (file_io e)) cs s').
  Qed.

  Lemma kept_tags hs n : forall t s, kept d P s -> kept d P (snd (fst (read_tags e (file_io e) hs n t s))).
  Proof.
    induction n as [|n IH]; intros t s K; [exact K|]. cbn [read_tags]. pose proof (kept_array 12 s K) as K'.
    destruct (read_array (file_io e) 12 s) as [[b|er|] s1]; cbn [snd fst] in *; try exact K'.
    destruct (tag_rejected e hs (tag_from_bytes e b)) as [[|]|]; try exact K'; [now apply IH|].
    destruct (add_tag t (tag_from_bytes e b)); [now apply IH|exact K'].
  Qed.

  Definition io_kept (p : Profile File) : Prop := exists s, p_io p = Some s /\ kept d P s.

  Lemma kept_u32 s : kept d P s -> kept d P (snd (read_u32 e (file_io e) s)).
  Proof.
    intros K. pose proof (kept_array 4 s K) as K'. unfold read_u32. now destruct (read_array (file_io e) 4 s) as [[b|er|] s1].
  Qed.

  Lemma kept_directory w c hs p s : kept d P s -> io_kept (o_profile (read_directory e w (file_io e) c hs p s)).
  Proof.
    intros K. unfold read_directory. pose proof (kept_u32 s K) as K3.
    destruct (read_u32 e (file_io e) s) as [[n|er|] s3]; cbn [snd] in K3; try (exists s3; split; [reflexivity|exact K3]).
    destruct (_ <? n).
    - destruct (signal_error _ _ _ _) as [c' ev]. exists s3. split; [reflexivity|exact K3].
    - match goal with |- context [read_tags ?a ?b ?x ?m ?t ?y] => pose proof (kept_tags x m t y K3) as K4;
        destruct (read_tags a b x m t y) as [[r s4] t'] end.
      exists s4. split; [reflexivity|exact K4].
  Qed.

  Lemma kept_header w c p s : p_io p = Some s -> kept d P s -> io_kept (o_profile (read_header_thr e w (file_io e) c p)).
  Proof.
    intros Hs K. unfold read_header_thr. rewrite Hs. pose proof (kept_array 128 s K) as K1.
    destruct (read_array (file_io e) 128 s) as [[b|er|] s1]; cbn [snd] in K1; try (exists s1; split; [reflexivity|exact K1]).
    destruct (negb _).
    - destruct (signal_error _ _ _ _) as [c' ev]. exists s1. split; [reflexivity|exact K1].
    - pose proof (kept_size s1 K1) as K2.
      destruct (reported_size (file_io e) s1) as [[n|er|] s2]; cbn [snd] in K2; try (exists s2; split; [reflexivity|exact K2]).
      destruct (dt_to_naive _); [now apply kept_directory|]. exists s2. split; [reflexivity|exact K2].
  Qed.
End Kept.

Lemma opened_io e w now sched ctx fs q d p : openable fs q d ->
  or_res (open_from_file_thr e w now sched ctx fs q ModeRead) = Ok p ->
  exists f, p_io p = Some f /\ kept d (no_fail sched) f.
Proof.
  intros (HC & HR & HB & HL) H. unfold open_from_file_thr, fs_open in H. rewrite HC, HR in H. unfold finish_open in H.
  assert (K0 : kept d (no_fail sched) (mkFile d 0 true false sched)).
  { repeat split; cbn; auto; try lia. all: unfold off_max; lia. }
  destruct (kept_header e d (no_fail sched) HL w ctx (with_mode (profile_new now) (mkFile d 0 true false sched) false) _ eq_refl K0)
    as (s & E & K).
  cbn [or_res] in H.
  destruct (o_res _); try discriminate. exists s. split; [|exact K].
  rewrite <- E. f_equal. apply (f_equal (fun x => match x with Ok a => a | _ => p end)) in H. symmetry. exact H.
Qed.

Lemma part_nth (d : list Z) : forall n o, (o + n <= List.length d)%nat ->
  firstn n (skipn o d) = map (fun i => nth i d 0) (seq o n).
Proof.
  induction n as [|n IH]; intros o H; [reflexivity|]. cbn [seq map].
  rewrite <- (IH (S o)) by lia. destruct (skipn o d) as [|x r] eqn:E.
  - exfalso. assert (List.length (skipn o d) = 0%nat) by now rewrite E. rewrite skipn_length in *. lia.
  - cbn [firstn]. f_equal.
    + rewrite <- (firstn_skipn o d), E. rewrite app_nth2; rewrite firstn_length; [|lia].
      now replace (o - Nat.min o (List.length d))%nat with 0%nat by lia.
    + f_equal. assert (X : skipn 1 (skipn o d) = skipn (S o) d).
      { clear. revert d. induction o as [|o IH]; intros d; [now destruct d|]. destruct d; [reflexivity|]. cbn [skipn]. apply IH. }
      rewrite E in X. exact X.
Qed.

Lemma fetch_file e d P s o n : kept d P s -> 0 <= o -> 0 <= n -> o + n <= zlen d -> zlen d <= off_max ->
  exists bs, bytes_at d o n = Some bs /\
  let answers := fst (run_calls (call_on (file_io e)) (fetch o n) s) in
  (answers = [Ok AUnit; Ok (ABytes bs)] \/ (answers = [Ok AUnit; Err OsError] /\ ~ P)).
Proof.
  intros (K1 & K2 & K3 & K4 & K5) Ho Hn HI HL. unfold bytes_at.
  replace ((0 <=? o) && (0 <=? n) && (o + n <=? Z.of_nat (List.length d))) with true by (unfold zlen in *; lia).
  eexists. split; [reflexivity|]. cbn [fetch run_calls call_on io_seek file_io file_seek].
  replace (off_max <? o) with false by lia. cbn [map_res].
  destruct (file_read_cases e (Z.to_nat n) (mkFile (f_data s) o (f_readable s) (f_writable s) (f_sched s)) K2 Ho)
    as (s' & _ & _ & C). cbn [f_data f_pos f_sched] in C. rewrite K1 in *.
  destruct C as [(E & _)|[(E & C)|(E & C)]].
  - left. change (mkIO file_read file_seek (file_tell e) file_write) with (file_io e). rewrite E. cbn.
    rewrite part_nth; [reflexivity|]. unfold zlen in *. lia.
  - exfalso. rewrite Z2Nat.id in C by lia. lia.
  - right. change (mkIO file_read file_seek (file_tell e) file_write) with (file_io e). rewrite E. cbn.
    split; [reflexivity|]. auto.
Qed.

Lemma entry_nonneg little d t : are_bytes d -> In t (entries little d) -> 0 <= t_offset t /\ 0 <= t_size t.
Proof.
  intros HB H. apply in_map_iff in H as (i & <- & _). cbn. split; apply wire_nonneg; now apply are_bytes_part.
Qed.

Lemma tag_in_file e w now sched ctx fs q d p i : openable fs q d ->
  or_res (open_from_file_thr e w now sched ctx fs q ModeRead) = Ok p -> (i < p_tag_count p)%nat ->
  let o := nth i (p_tag_offsets p) 0 in let n := nth i (p_tag_sizes p) 0 in
  0 <= o /\ 0 <= n /\ o + n <= zlen d.
Proof.
  intros HO HP Hi. destruct (listed_fields _ _ _ _ _ _ _ _ _ HO HP) as (_ & io & ->).
  cbn [spec_profile p_tag_count p_tag_offsets p_tag_sizes] in *.
  set (a := accepted _ _ _) in *.
  assert (Q : forall f : TagEntry -> Z, nth i (pad 0 (map f a)) 0 = f (nth i a (mkTag 0 0 0))).
  { intros f. unfold pad. rewrite app_nth1 by now rewrite map_length.
    rewrite (nth_indep _ 0 (f (mkTag 0 0 0))) by now rewrite map_length. apply map_nth. }
  rewrite !Q. pose proof (nth_In a (mkTag 0 0 0) Hi) as IN. apply filter_In in IN as (I1 & I2).
  destruct HO as (_ & _ & HB & _). destruct (entry_nonneg _ _ _ HB I1).
  assert (U : 0 < usize_lim e) by (destruct (usize_lim_cases e) as [E|E]; rewrite E; lia).
  pose proof (Z.mod_le (Z.of_nat (List.length d)) (usize_lim e) ltac:(lia) U).
  unfold in_file, limit, last_byte in I2. unfold zlen. lia.
Qed.

Lemma fetch_listed e w now sched ctx fs q d p f cs i : openable fs q d ->
  or_res (open_from_file_thr e w now sched ctx fs q ModeRead) = Ok p -> p_io p = Some f ->
  Forall call_ok cs -> (i < p_tag_count p)%nat ->
  let s := snd (run_calls (call_on (file_io e)) cs f) in
  let o := nth i (p_tag_offsets p) 0 in let n := nth i (p_tag_sizes p) 0 in
  exists bs, bytes_at d o n = Some bs /\
  let answers := fst (run_calls (call_on (file_io e)) (fetch o n) s) in
  (answers = [Ok AUnit; Ok (ABytes bs)] \/ (answers = [Ok AUnit; Err OsError] /\ ~ no_fail sched)).
Proof.
  intros HO HP HF HC Hi s o n. destruct (opened_io _ _ _ _ _ _ _ _ _ HO HP) as (f' & E & K).
  assert (f' = f) by congruence. subst f'. pose proof HO as (_ & _ & _ & HL).
  destruct (tag_in_file _ _ _ _ _ _ _ _ _ i HO HP Hi) as (T1 & T2 & T3).
  apply fetch_file; try assumption. now apply kept_calls.
Qed.

Lemma search_in_table {H} (p : Profile H) sig : forall n i k, search_one_from (p_tag_names p) sig n i = Some (Some k) ->
  (i <= k < i + n)%nat /\ nth_error (p_tag_names p) k = Some sig.
Proof.
  induction n as [|n IH]; intros i k X; [discriminate|]. cbn [search_one_from] in X.
  destruct (nth_error (p_tag_names p) i) as [nm|] eqn:E; [|discriminate].
  destruct (sig_eqb sig nm) eqn:ES.
  - assert (i = k) by congruence. subst k. unfold sig_eqb in ES. apply Z.eqb_eq in ES. subst nm. split; [lia|exact E].
  - apply IH in X. split; [lia|tauto].
Qed.
Lemma search_found {H} (p : Profile H) links : forall fuel sig i, search_tag fuel p sig links = Done (Some i) ->
  (i < p_tag_count p)%nat.
Proof.
  induction fuel as [|fuel IH]; intros sig i X; [discriminate|]. cbn [search_tag] in X. unfold search_tag_step in X.
  destruct (search_one_tag p sig) as [[k|]|] eqn:E; [|discriminate|discriminate].
  apply search_in_table in E. destruct links; cbn [negb] in X.
  - destruct (nth_error (p_tag_linked p) k) as [[v|]|]; [now apply IH in X| |discriminate].
    assert (k = i) by congruence. lia.
  - assert (k = i) by congruence. lia.
Qed.

Lemma fetch_named e w now sched ctx fs q d p f cs fuel sig links i : openable fs q d -> no_fail sched ->
  or_res (open_from_file_thr e w now sched ctx fs q ModeRead) = Ok p -> p_io p = Some f ->
  Forall call_ok cs -> search_tag fuel p sig links = Done (Some i) ->
  let s := snd (run_calls (call_on (file_io e)) cs f) in
  let o := nth i (p_tag_offsets p) 0 in let n := nth i (p_tag_sizes p) 0 in
  exists bs, bytes_at d o n = Some bs /\
    fst (run_calls (call_on (file_io e)) (fetch o n) s) = [Ok AUnit; Ok (ABytes bs)].
Proof.
  intros HO NF HP HF HC HS s o n.
  destruct (fetch_listed e w now sched ctx fs q d p f cs i HO HP HF HC (search_found _ _ _ _ _ HS)) as (bs & B & [A|(_ & N)]); [|contradiction].
  exists bs. split; [exact B|exact A].
Qed.

Lemma kept_no_panic e d P c s : zlen d <= off_max -> kept d P s -> fst (call_on (file_io e) c s) <> Panic.
Proof.
  intros HL K. pose proof K as (K1 & K2 & K3 & K4 & K5). destruct c as [n|bs|pos| |]; cbn [call_on].
  - destruct (file_read_cases e n s K2 ltac:(lia)) as (s' & _ & _ & [(-> & _)|[(-> & _)|(-> & _)]]); discriminate.
  - pose proof (file_write_fuel s bs K4) as X. cbn [io_write file_io]. destruct (file_write s bs) as [[a|er|] s']; cbn in *; congruence.
  - cbn [io_seek file_io]. unfold file_seek. destruct pos as [n|n|n]; repeat destruct (_ <? _); discriminate.
  - discriminate.
  - rewrite reported_size_any by (rewrite ?K1; assumption). discriminate.
Qed.
Lemma kept_answers e d P : zlen d <= off_max -> forall cs, Forall call_ok cs -> forall s, kept d P s ->
  let answers := fst (run_calls (call_on (file_io e)) cs s) in
  List.length answers = List.length cs /\ ~ In Panic answers.
Proof.
  intros HL. induction 1 as [|c cs C _ IH]; intros s K; [cbn; tauto|]. cbn [run_calls].
  pose proof (kept_call e d P HL c s K C) as K'. pose proof (kept_no_panic e d P c s HL K) as N.
  destruct (call_on (file_io e) c s) as [[a|er|] s']; cbn [fst snd] in *; [| |congruence];
    specialize (IH s' K'); destruct (run_calls (call_on (file_io e)) cs s') as [xs s'']; cbn [fst snd] in *;
    destruct IH as (L & I); (split; [cbn; lia|intros [X|X]; [discriminate|now apply I]]).
Qed.
Lemma only_reads e w now sched ctx fs q d p : openable fs q d ->
  or_res (open_from_file_thr e w now sched ctx fs q ModeRead) = Ok p ->
  exists f, p_io p = Some f /\
  forall cs, Forall call_ok cs ->
    let '(answers, s) := run_calls (call_on (file_io e)) cs f in
    f_data s = d /\ List.length answers = List.length cs /\ ~ In Panic answers /\
    forall b bs, call_on (file_io e) (CWrite (b :: bs)) s = (Err OsError, snd (call_on (file_io e) (CWrite (b :: bs)) s)).
Proof.
  intros HO HP. destruct (opened_io _ _ _ _ _ _ _ _ _ HO HP) as (f & E & K). pose proof HO as (_ & _ & _ & HL).
  exists f. split; [exact E|]. intros cs HC.
  pose proof (kept_calls e d _ HL cs HC f K) as K'. pose proof (kept_answers e d _ HL cs HC f K) as (A1 & A2).
  destruct (run_calls (call_on (file_io e)) cs f) as [answers s]. cbn [fst snd] in *. destruct K' as (K1 & K2 & K3 & K4 & K5).
  split; [exact K1|]. split; [exact A1|]. split; [exact A2|]. intros b bs.
  cbn [call_on io_write file_io]. unfold file_write. rewrite Nat.add_1_r. cbn [file_write_loop]. unfold sys_write. rewrite K3. reflexivity.
Qed.
