(** The texts of floats, profiles and contexts. *)
From Coq Require Import String Eqdep_dec.
From Flocq Require Import IEEE754.BinarySingleNaN.
From Verif Require Import M_Base M_F64 M_Signature M_Context M_Header M_Profile M_FileFile M_Debug M_Show M_Show2 S_Bytes S_Decimal S_Header S_Profile S_Show S_Show2
  P_Debug P_Decimal P_Header P_Profile P_Open P_Open3 P_Open2 P_Show P_Show2 P_Show3.
Local Open Scope list_scope.
Local Open Scope Z_scope.

Lemma atomb l : forallb atom_charb l = true ->
  match l with [] => false | c :: r => ((c =? 43) || (c =? 45) || (48 <=? c) && (c <=? 57)) && negb (forallb (fun d => (48 <=? d) && (d <=? 57)) r) end = true -> atom l.
Proof.
  intros A B. split; [now apply atomb_atom|]. destruct l as [|c r]; [discriminate|]. exists c, r. apply andb_true_iff in B as (B & C). split; [reflexivity|]. split; [cbn; lia|].
  intros F. apply negb_true_iff in C. assert (forallb (fun d => (48 <=? d) && (d <=? 57)) r = true); [|congruence]. apply forallb_forall. intros d I. rewrite Forall_forall in F. specialize (F d I). cbv beta in F. lia.
Qed.
Lemma wf_float fl x : finite_text fl -> well_formed (show_float fl x).
Proof.
  intros (A & _). destruct x as [s|[]| |s m e b]; cbn [show_float well_formed]; try (apply A; reflexivity); [apply atomb; reflexivity|idn|idn].
Qed.
Lemma atom_same l l' : SAtom l = SAtom l' -> l = l'.
Proof. now intros [= ->]. Qed.
Lemma float_same fl x y : finite_text fl -> show_float fl x = show_float fl y -> x = y.
Proof.
  intros (N & I) E.
  assert (M : forall z, is_finite z = true -> SAtom (fl z) <> SAtom (text "-inf")) by (intros z FZ G; apply atom_same in G; now apply (proj2 (N z FZ))).
  destruct x as [s|[]| |s m e b], y as [s'|[]| |s' m' e' b']; cbn [show_float] in E; try reflexivity; try discriminate E;
    first [apply atom_same in E; apply I; [reflexivity..|exact E]|exfalso; revert E; now apply M|exfalso; symmetry in E; revert E; now apply M].
Qed.

Lemma wf_ciexyz fl x y z : finite_text fl -> well_formed (show_ciexyz fl x y z).
Proof. intros F. unfold show_ciexyz. wfs; now apply wf_float. Qed.
Lemma ciexyz_tells fl : finite_text fl ->
  tells (fun _ => True) (fun p : f64 * f64 * f64 => show_ciexyz fl (fst (fst p)) (snd (fst p)) (snd p)) /\ tells (fun _ => True) (show_adaption fl).
Proof.
  intros T. split; apply texts_tell.
  - intros ((x & y) & z) _. now apply wf_ciexyz.
  - intros ((x & y) & z) ((x' & y') & z') _ _ E. unfold show_ciexyz in E. fields E. apply float_same in F, F0, F1; try assumption. cbn in *. congruence.
  - intros x _. unfold show_adaption. wfs. now apply wf_float.
  - intros x y _ _ E. unfold show_adaption in E. fields E. now apply float_same in F.
Qed.
(** Some choice of digits: mantissa and exponent. *)
Definition some_digits (x : f64) : list Z :=
  match x with
  | B754_zero s => (if s then text "-" else []) ++ text "0.0"
  | B754_finite s m e _ => (if s then text "-" else []) ++ decimal (Zpos m) ++ text "e" ++ show_num e
  | _ => []
  end.
Lemma some_digits_text : finite_text some_digits.
Proof.
  assert (Z0 : forall s, atom (some_digits (B754_zero s)) /\ some_digits (B754_zero s) <> text "-inf").
  { intros []; (split; [apply atomb; reflexivity|discriminate]). }
  assert (D : forall m, Forall digit (decimal (Zpos m)) /\ exists c r, decimal (Zpos m) = c :: r /\ 48 <= c <= 57).
  { intros m. split; [now apply decimal_digits|now apply decimal_head]. }
  assert (DA : forall m, Forall atom_char (decimal (Zpos m))).
  { intros m. eapply Forall_impl; [|apply (proj1 (D m))]. intros c C. cbv beta in C. left. unfold ident_char. lia. }
  assert (NE : forall l e, ~ Forall digit (l ++ text "e" ++ show_num e)).
  { intros l e F. apply Forall_app in F as (_ & F). inversion F as [|? ? C _]. cbn in C. lia. }
  split.
  - intros [s| | |s m e b] H; try discriminate; [apply Z0|]. destruct (D m) as (DF & c & r & DH & DC). cbn [some_digits]. split; [split|].
    + rewrite !Forall_app. repeat split; [destruct s; apply atomb_atom; reflexivity|apply DA|apply atomb_atom; reflexivity|apply num_chars].
    + destruct s.
      * exists 45, (decimal (Zpos m) ++ text "e" ++ show_num e). split; [reflexivity|]. split; [right; cbn; lia|apply NE].
      * rewrite DH. exists c, (r ++ text "e" ++ show_num e). split; [reflexivity|]. split; [tauto|apply NE].
    + destruct s; rewrite DH; cbn [text app]; intros [= E1]; cbn in E1; lia.
  - assert (R : forall m e m' e', decimal (Zpos m) ++ text "e" ++ show_num e = decimal (Zpos m') ++ text "e" ++ show_num e' -> m = m' /\ e = e').
    { intros m e m' e' E. destruct (span digit (decimal (Zpos m)) (decimal (Zpos m')) (text "e" ++ show_num e) (text "e" ++ show_num e') (proj1 (D m)) (proj1 (D m'))) as (A & B); [intros ? ? [= <- _]; cbn; lia..|exact E|].
      apply decimal_injective in A; [|lia..]. apply app_inv_head in B. destruct (num_read e e' [] []) as (B1 & _); [now left..|now rewrite !app_nil_r|]. split; [congruence|exact B1]. }
    assert (NZ : forall m e, decimal (Zpos m) ++ text "e" ++ show_num e <> text "0.0").
    { intros m e E. destruct (span digit (decimal (Zpos m)) [48] (text "e" ++ show_num e) [46; 48] (proj1 (D m))) as (_ & B); [repeat constructor; lia|intros ? ? [= <- _]; cbn; lia..|exact E|].
      discriminate B. }
    assert (SG : forall m e l, decimal (Zpos m) ++ l <> 45 :: e).
    { intros m e l E. destruct (D m) as (_ & c & r & DH & DC). rewrite DH in E. injection E as -> _. lia. }
    intros [s| | |s m e b] [s'| | |s' m' e' b'] H H' E; try discriminate; cbn [some_digits] in E.
    + destruct s, s'; try reflexivity; discriminate.
    + exfalso. destruct s, s'; cbn [app text] in E.
      * injection E as E. symmetry in E. now apply NZ in E.
      * symmetry in E. now apply SG in E.
      * discriminate.
      * symmetry in E. now apply NZ in E.
    + exfalso. destruct s, s'; cbn [app text] in E.
      * injection E as E. now apply NZ in E.
      * discriminate.
      * now apply SG in E.
      * now apply NZ in E.
    + assert (S : s = s' /\ m = m' /\ e = e').
      { destruct s, s'; cbn [app text] in E.
        - injection E as E. apply R in E. tauto.
        - symmetry in E. now apply SG in E.
        - now apply SG in E.
        - apply R in E. tauto. }
      destruct S as (<- & <- & <-). f_equal. apply UIP_dec. decide equality.
Qed.

(** Profiles. *)
Lemma wf_option {A} (f : A -> shown) o : (forall a, o = Some a -> well_formed (f a)) -> well_formed (show_option f o).
Proof. intros W. destruct o as [a|]; cbn [show_option well_formed]; [|idn]. split; [idn|]. split; [discriminate|]. split; [now apply W|exact I]. Qed.
Lemma option_same {A} (f : A -> shown) o o' : show_option f o = show_option f o' <-> option_map f o = option_map f o'.
Proof. destruct o, o'; cbn; split; intros E; try discriminate; try reflexivity; injection E as E; now rewrite E. Qed.
Lemma sig_option_same o o' : (forall s, o = Some s -> is_uint 4 s) -> (forall s, o' = Some s -> is_uint 4 s) -> show_option show_sig o = show_option show_sig o' -> o = o'.
Proof. intros A B E. destruct o as [a|], o' as [b|]; cbn in E; try discriminate; [|reflexivity]. injection E as E. f_equal. apply debug_value_injective; auto. Qed.
Lemma bool_same b b' : show_bool b = show_bool b' -> b = b'.
Proof. now destruct b, b'. Qed.
Lemma wf_bool b : well_formed (show_bool b).
Proof. destruct b; cbn [show_bool well_formed]; idn. Qed.
Lemma wf_profile {H} (io : H -> shown) p : (forall h, p_io p = Some h -> well_formed (io h)) -> profile_wf p -> well_formed (show_profile io p).
Proof.
  intros W ((C & _) & D & CS & P & I & N & L). unfold show_profile. wfs; try exact Logic.I; try (now apply wf_sig); try apply wf_nums; try apply wf_bool.
  - now apply wf_option.
  - now apply wf_nd.
  - now apply wf_id.
  - apply wf_list. eapply Forall_impl; [|exact N]. exact wf_sig.
  - apply wf_list. eapply Forall_impl; [|exact L]. intros o O. apply wf_option. intros s S. apply wf_sig. now apply O.
  - apply wf_list. apply Forall_forall. intros b _. apply wf_bool.
Qed.
Lemma profile_same {H} (io : H -> shown) (a b : Profile H) : profile_wf a -> profile_wf b ->
  (show_profile io a = show_profile io b <-> without_io a = without_io b /\ option_map io (p_io a) = option_map io (p_io b)).
Proof.
  intros A B. split.
  - intros E. unfold show_profile in E. fields E. destruct A as (C & D & CS & P & I & N & L), B as (C' & D' & CS' & P' & I' & N' & L').
    apply option_same in F. split; [|exact F].
    apply nd_same in F0; try assumption. apply sig_same in F2, F3, F4; try assumption. apply id_same in F11; try assumption.
    injection F13 as F13. apply (map_same show_sig (is_uint 4) sig_same) in F13; try assumption.
    injection F14 as F14. apply (map_same (show_option show_sig) _ sig_option_same) in F14; try assumption.
    injection F17 as F17. apply (map_same show_bool (fun _ => True)) in F17; [|intros; now apply bool_same|now apply Forall_forall..].
    apply list_same in F15, F16. apply bool_same in F18.
    repeat match goal with F : SNum _ = SNum _ |- _ => apply num_same in F end. apply Nat2Z.inj in F12.
    unfold without_io. rewrite F0, F1, F2, F3, F4, F5, F6, F7, F8, F9, F10, F11, F12, F13, F14, F15, F16, F17, F18. reflexivity.
  - intros (W & IO). apply option_same in IO. unfold show_profile. rewrite IO. clear IO A B. destruct a, b. cbn in *. unfold without_io in W. cbn in W. injection W. intros. subst. reflexivity.
Qed.
Lemma profile_texts {H} (io : H -> shown) u (a b : Profile H) : (forall h, well_formed (io h)) -> profile_wf a -> profile_wf b ->
  (compact u (show_profile io a) = compact u (show_profile io b) <-> profile_eqb a b = true /\ option_map io (p_io a) = option_map io (p_io b)) /\
  (pretty u (show_profile io a) = pretty u (show_profile io b) <-> profile_eqb a b = true /\ option_map io (p_io a) = option_map io (p_io b)).
Proof.
  intros W A B. rewrite profile_eqb_iff, <- (profile_same io a b A B). pose proof (wf_profile io a (fun h _ => W h) A) as WA. pose proof (wf_profile io b (fun h _ => W h) B) as WB.
  split; (split; [|now intros ->]); intros E.
  - destruct (compact_reads u _ WA _ [] [] WB) as (R & _); [now left..|now rewrite !app_nil_r|exact R].
  - destruct (pretty_reads u _ WA _ [] [] WB) as (R & _); [now left..|now rewrite !app_nil_r|exact R].
Qed.
Lemma opened_wf e w now sched ctx fs q d p : openable fs q d ->
  or_res (open_from_file_thr e w now sched ctx fs q ModeRead) = Ok p -> profile_wf p.
Proof.
  intros HO HP. destruct (opened _ _ _ _ _ _ _ _ _ HO HP) as (J & s & ->). inversion J as [| | | | | | |M R N OV LEN]; subst. destruct HO as (_ & _ & BY & _).
  pose proof (declared_nonneg (feat_le e) d BY) as DL. pose proof (header_wf_prefix (feat_le e) d BY ltac:(lia)) as HW. set (len := M_FileMem.zlen d mod usize_lim e).
  assert (T : Forall (fun t => is_uint 4 (t_sig t)) (accepted (feat_le e) d len)).
  { apply Forall_forall. intros t T. apply filter_In in T as (T & _). unfold S_Profile.entries in T. apply in_map_iff in T as (i & <- & T). apply in_seq in T.
    apply (word_uint (feat_le e) d (132 + 12 * i) 4 BY). lia. }
  unfold profile_wf. cbn [p_created p_device_class p_color_space p_pcs p_profile_id p_tag_names p_tag_linked spec_profile]. unfold header_wf in HW.
  repeat split; try (apply HW); try (apply R); cbn [spec_date nd_year nd_month nd_day nd_hour nd_min nd_sec nd_nano]; try lia.
  - destruct HW as (_ & _ & _ & _ & _ & _ & (Y & _) & _). unfold is_uint in Y. lia.
  - destruct HW as (_ & _ & _ & _ & _ & _ & (Y & _) & _). unfold is_uint in Y. lia.
  - unfold pad. apply Forall_app. split; [now apply Forall_map|]. apply Forall_forall. intros x X. apply repeat_spec in X. subst x. unfold is_uint. lia.
  - unfold pad. apply Forall_app. split; [|apply Forall_forall; intros x X; apply repeat_spec in X; now subst x].
    fold len. generalize dependent (accepted (feat_le e) d len). induction l as [|t l IH]; intros T; cbn [links]; constructor; inversion T; subst; [|now apply IH].
    destruct (existsb (same_data t) l); intros s0 [= <-]. assumption.
Qed.
Lemma new_wf {H} now : proper_nd now -> profile_wf (@profile_new H now).
Proof.
  intros N. unfold profile_wf. cbn [profile_new p_created p_device_class p_color_space p_pcs p_profile_id p_tag_names p_tag_linked].
  assert (S : is_uint 4 sig_default) by (unfold is_uint; vm_compute; split; [discriminate|reflexivity]).
  assert (R : forall A (P : A -> Prop) x n, P x -> Forall P (repeat x n)) by (intros A P x n X; apply Forall_forall; intros y Y; apply repeat_spec in Y; now subst y).
  split; [exact N|]. repeat split; try exact S; try (apply S); apply R; [unfold is_byte; lia|exact S|discriminate].
Qed.

(** Contexts. *)
Lemma wf_chunk n f g l : ident n -> ident f -> (forall x, well_formed (g x)) -> well_formed (show_chunk n f g l).
Proof.
  intros N F W. unfold show_chunk. apply wf_struct; [exact N|discriminate|]. constructor; [|constructor]. split; [exact F|]. cbn [snd]. apply wf_list. apply Forall_forall. auto.
Qed.
Lemma wf_error_chunk : well_formed show_log_error_chunk.
Proof. unfold show_log_error_chunk. wfs. apply ascii_is_text. vm_compute. repeat constructor; discriminate. Qed.
Lemma wf_context fl it c : finite_text fl -> items_wf it -> well_formed (show_context fl it c).
Proof.
  intros F I. unfold show_context. wfs; try (apply wf_chunk; [idn|idn|apply I]).
  - apply wf_option. intros a _. apply wf_nums.
  - apply wf_error_chunk.
  - unfold show_alarm_codes. wfs. apply wf_nums.
  - unfold show_adaption. wfs. now apply wf_float.
  - apply wf_error_chunk.
Qed.
Lemma chunk_same n f g l l' : show_chunk n f g l = show_chunk n f g l' <-> map g l = map g l'.
Proof. unfold show_chunk. split; [intros E; now injection E|now intros ->]. Qed.
Lemma data_same o o' : show_option (fun d => SList (map SNum d)) o = show_option (fun d => SList (map SNum d)) o' -> o = o'.
Proof. destruct o as [l|], o' as [l'|]; cbn; intros E; try discriminate; [|reflexivity]. injection E as E. f_equal. now apply nums_injective. Qed.
Lemma context_same fl it a b : finite_text fl -> (show_context fl it a = show_context fl it b <-> visible it a = visible it b).
Proof.
  intros T. split.
  - intros E. unfold show_context in E. fields E. apply data_same in F. apply chunk_same in F4, F5, F6, F7, F8, F9, F10, F11. unfold show_alarm_codes in F1. fields F1. apply list_same in F12.
    unfold show_adaption in F2. fields F2. apply float_same in F1; [|exact T]. unfold visible. congruence.
  - unfold visible. intros [= A B C D E F G H I J K]. unfold show_context, show_chunk. now rewrite A, B, C, D, E, F, G, H, I, J, K.
Qed.
Lemma context_texts fl it u a b : finite_text fl -> items_wf it ->
  (compact u (show_context fl it a) = compact u (show_context fl it b) <-> visible it a = visible it b) /\
  (pretty u (show_context fl it a) = pretty u (show_context fl it b) <-> visible it a = visible it b).
Proof.
  intros F I. rewrite <- (context_same fl it a b F). pose proof (wf_context fl it a F I) as WA. pose proof (wf_context fl it b F I) as WB.
  split; (split; [|now intros ->]); intros E.
  - destruct (compact_reads u _ WA _ [] [] WB) as (R & _); [now left..|now rewrite !app_nil_r|exact R].
  - destruct (pretty_reads u _ WA _ [] [] WB) as (R & _); [now left..|now rewrite !app_nil_r|exact R].
Qed.
(** A fresh context. *)
Definition new_text : list Z := text
  "Context { user_data: Some([7, 255]), error_handler: LogErrorChunk { handler: ""[Function Pointer]"" }, alarm_codes: AlarmCodesChunk { alarm_codes: [32512, 32512, 32512, 0, 0, 0, 0, 0, 0, 0, 0, 0, 0, 0, 0, 0] }, adaption_state: AdaptionStateChunk { adaption_state: 1.0 }, interpolation_plugin: LogErrorChunk { handler: ""[Function Pointer]"" }, curves_plugin: CurvesPluginChunk { parametric_curves: [] }, formatters_plugin: FormattersPluginChunk { factory_list: [] }, tag_types_plugin: TagTypePluginChunk { tag_types: [] }, tags_plugin: TagPluginChunk { tags: [] }, intents_plugin: IntentsPluginChunk { intents: [] }, mpe_types_plugin: TagTypePluginChunk { tag_types: [] }, optimization_plugin: OptimizationPluginChunk { optimization_collection: [] }, transform_plugin: TransformPluginChunk { transform_collection: [] } }".
Lemma fresh_text fl it : fl (f64_lit 1 0) = text "1.0" -> compact all_shown (show_context fl it (context_new (Some [7; 255]))) = new_text.
Proof.
  intros F. unfold show_context, context_new. cbn [c_user_data c_alarm_codes c_adaption_state c_curves c_formatters c_tag_types c_tags c_intents c_mpe_types c_optimizations c_transforms].
  assert (A : show_adaption fl (f64_lit 1 0) = SStruct "AdaptionStateChunk" [("adaption_state"%string, SAtom (text "1.0"))]).
  { unfold show_adaption. do 3 f_equal. rewrite <- F. reflexivity. }
  rewrite A. vm_compute. reflexivity.
Qed.
(** A new profile, in full. *)
Definition hundred (s : string) : list Z := text "[" ++ join (repeat (text s) 100) ++ text "]".
Definition new_profile_text : list Z :=
  text "Profile { io: None, created: 2026-01-02T03:04:05.000000006, version: 34603008, device_class: Signature { value: ""    "" }, color_space: Signature { value: ""    "" }, pcs: Signature { value: ""    "" }, rendering_intent: 0, flags: 0, manufacturer: 0, model: 0, attributes: 0, creator: 0, profile_id: ProfileID { value: ""  0   0   0   0   0   0   0   0   0   0   0   0   0   0   0   0 "" }, tag_count: 0, tag_names: "
  ++ hundred "Signature { value: ""    "" }" ++ text ", tag_linked: " ++ hundred "None" ++ text ", tag_sizes: " ++ hundred "0" ++ text ", tag_offsets: " ++ hundred "0"
  ++ text ", tag_save_as_raw: " ++ hundred "false" ++ text ", is_write: false }".
Lemma new_profile_shown {H} (io : H -> shown) : compact all_shown (show_profile io (profile_new (mkND 2026 1 2 3 4 5 6))) = new_profile_text.
Proof. vm_compute. reflexivity. Qed.
