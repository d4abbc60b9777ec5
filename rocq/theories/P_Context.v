(** Proofs about plug-ins and contexts (C46-C49). *)
From Coq Require Import String.
From Verif Require Import M_Base M_FileFile M_Signature M_SigTables M_Context M_Header M_Profile S_Bytes S_Profile S_Context P_Open3.
Local Open Scope list_scope.
Local Open Scope Z_scope.

Lemma known_iff t : known_plugin_type t = true <-> In t known_types.
Proof.
  unfold known_plugin_type, sig_eqb, known_types. cbn [map In].
  rewrite !orb_true_iff, !Z.eqb_eq.
  change (code "inpH") with PT_INTERPOLATION. change (code "typH") with PT_TAG_TYPE. change (code "tagH") with PT_TAG.
  change (code "frmH") with PT_FORMATTERS. change (code "intH") with PT_RENDERING_INTENT.
  change (code "parH") with PT_PARAMETRIC_CURVE. change (code "mpeH") with PT_MULTI_PROCESS_ELEMENT.
  change (code "optH") with PT_OPTIMIZATION. change (code "xfmH") with PT_TRANSFORM.
  split.
  - intros H. repeat match goal with H : _ \/ _ |- _ => destruct H as [H|H] end; subst; tauto.
  - intros H. repeat match goal with H : _ \/ _ |- _ => destruct H as [H|H] end; try contradiction; subst; tauto.
Qed.

Lemma version_text v : msg_version v = text "plugin needs Little CMS " ++ decimal v ++ text ", current version is 2131".
Proof. unfold msg_version. do 2 f_equal. Qed.
Lemma type_text w t : msg_type w t = text "Unrecognized plugin type '" ++ quoted w t ++ text "'".
Proof.
  unfold msg_type, quoted. rewrite <- !app_assoc. 
  change (text "Unrecognized plugin type 'Signature { value: ") with (text "Unrecognized plugin type '" ++ text "Signature { value: ").
  change (text " }'") with (text " }" ++ text "'"). now rewrite <- app_assoc.
Qed.

Fixpoint plugin_depth (p : Plugin) : nat :=
  match p with mkPlugin _ _ _ _ None => 1 | mkPlugin _ _ _ _ (Some q) => S (plugin_depth q) end.

Lemma validated_cons m v t d q : validated (mkPlugin m v t d (Some q)) = mkPlugin m v t d (Some q) :: validated q.
Proof. unfold validated. cbn [chain]. destruct q. reflexivity. Qed.

(** Everything at once. *)
Definition init_spec (w : world) (c : Context) (p : Plugin) (r : str_result * Context * list event) : Prop :=
  (Forall acceptable (validated p) /\ r = (SOk, c, [])) \/
  (exists pre bad post t, validated p = pre ++ bad :: post /\ Forall acceptable pre /\ complaint w bad t /\
     r = (SErr t, call_handler w c EC_UnknownExtension t, [(EC_UnknownExtension, t)])).

Lemma init_plugin_spec w c : forall p, init_spec w c p (init_plugin w c p).
Proof.
  assert (F : forall n p, plugin_depth p = n -> init_spec w c p (init_plugin w c p)).
  { induction n as [|n IH]; intros [m v t d [q|]] E; cbn [plugin_depth] in E; try discriminate.
    - injection E as E. specialize (IH q E). unfold init_spec. rewrite validated_cons. cbn [init_plugin].
      unfold sig_eqb. destruct (m =? PT_MAGIC) eqn:EM; cbn [negb].
      + apply Z.eqb_eq in EM. destruct (LCMS_VERSION <? v) eqn:EV.
        * right. exists [], (mkPlugin m v t d (Some q)), (validated q), (msg_version v).
          split; [reflexivity|]. split; [constructor|]. split; [|reflexivity].
          rewrite version_text. apply Z.ltb_lt in EV. exact (CVersion w (mkPlugin m v t d (Some q)) EM EV).
        * apply Z.ltb_ge in EV. destruct (known_plugin_type t) eqn:EK.
          -- apply known_iff in EK. assert (A : acceptable (mkPlugin m v t d (Some q))) by (split; [exact EM|split; [exact EV|exact EK]]).
             destruct IH as [(IH & ->)|(pre & bad & post & tx & V & FA & CO & ->)].
             ++ left. split; [now constructor|reflexivity].
             ++ right. exists (mkPlugin m v t d (Some q) :: pre), bad, post, tx. rewrite V. split; [reflexivity|]. split; [now constructor|]. auto.
          -- right. exists [], (mkPlugin m v t d (Some q)), (validated q), (msg_type w t).
             split; [reflexivity|]. split; [constructor|]. split; [|reflexivity].
             rewrite type_text. refine (CType w (mkPlugin m v t d (Some q)) EM EV _). cbn [type_of]. rewrite <- known_iff. congruence.
      + right. exists [], (mkPlugin m v t d (Some q)), (validated q), msg_unrecognized.
        split; [reflexivity|]. split; [constructor|]. split; [|reflexivity].
        apply Z.eqb_neq in EM. exact (CMagic w (mkPlugin m v t d (Some q)) EM).
    - left. split; [constructor|reflexivity]. }
  intros p. exact (F _ p eq_refl).
Qed.

Lemma complaint_not_acceptable w p t : complaint w p t -> ~ acceptable p.
Proof. intros C (A1 & A2 & A3). destruct C; try contradiction. lia. Qed.

Lemma init_ok_iff w c p : fst (fst (init_plugin w c p)) = SOk <-> Forall acceptable (validated p).
Proof.
  destruct (init_plugin_spec w c p) as [(A & ->)|(pre & bad & post & t & V & FA & CO & ->)].
  - split; auto.
  - split; [discriminate|]. intros A. rewrite V in A. apply Forall_app in A as (_ & A). inversion A; subst.
    exfalso. eapply complaint_not_acceptable; eassumption.
Qed.

Lemma init_report w c p :
  let '(r, c', ev) := init_plugin w c p in
  match r with
  | SOk => c' = c /\ ev = []
  | SErr t => ev = [(EC_UnknownExtension, t)] /\ c' = call_handler w c EC_UnknownExtension t /\
      exists pre bad post, validated p = pre ++ bad :: post /\ Forall acceptable pre /\ complaint w bad t
  end.
Proof.
  destruct (init_plugin_spec w c p) as [(A & ->)|(pre & bad & post & t & V & FA & CO & ->)]; [auto|].
  split; [reflexivity|]. split; [reflexivity|]. exists pre, bad, post. auto.
Qed.

Lemma complaint_fun w p t t' : complaint w p t -> complaint w p t' -> t = t'.
Proof. intros C C'. destruct C; destruct C'; try contradiction; try reflexivity; lia. Qed.

(** C48 *)
Lemma op_keeps e w c o : c_error_handler c = O -> apply_op e w c o = c.
Proof.
  intros HC. destruct o as [cd t|p|now sched fs q mode]; cbn [apply_op].
  - unfold signal_error. cbn [fst]. now rewrite HC.
  - destruct (init_plugin_spec w c p) as [(A & ->)|(pre & bad & post & t & V & FA & CO & ->)]; [reflexivity|].
    cbn [fst snd]. unfold call_handler. now rewrite HC.
  - now apply open_quiet.
Qed.
Lemma ops_keep e w data ops : fold_left (apply_op e w) ops (context_new data) = context_new data.
Proof. induction ops as [|o ops IH]; [reflexivity|]. cbn [fold_left]. rewrite op_keeps by reflexivity. exact IH. Qed.

(** C49 *)
Definition predicates : list (PluginType -> bool) :=
  [is_interpolation; is_parametric_curves; is_formatter; is_tag_type; is_tag; is_rendering_intent;
   is_multi_process_element; is_optimization; is_transform].
Definition variant (d : PluginType) : nat :=
  match d with
  | PT_Interpolation _ => 0 | PT_ParametricCurve _ _ _ _ => 1 | PT_Formatter _ => 2 | PT_TagType _ => 3 | PT_Tag _ _ => 4
  | PT_RenderingIntent _ _ _ => 5 | PT_MultiProcessElement _ => 6 | PT_Optimization _ => 7 | PT_Transform _ => 8
  end.
Lemma predicates_spec d i : (i < 9)%nat -> nth i (map (fun f => f d) predicates) false = Nat.eqb i (variant d).
Proof. intros H. do 9 (destruct i as [|i]; [destruct d; reflexivity|]). lia. Qed.

From Coq Require Import Reals.
From Flocq Require Import Core IEEE754.BinarySingleNaN.
From Verif Require Import M_F64 P_S15.
Local Open Scope Z_scope.
Lemma defaults data : let c := context_new data in
  get_user_data c = data /\ c_alarm_codes c = repeat 32512 3 ++ repeat 0 13 /\ B2R (c_adaption_state c) = 1%R /\
  c_curves c = [] /\ c_formatters c = [] /\ c_tag_types c = [] /\ c_tags c = [] /\ c_intents c = [] /\
  c_mpe_types c = [] /\ c_optimizations c = [] /\ c_transforms c = [].
Proof.
  cbv zeta. split; [reflexivity|]. split; [reflexivity|]. split; [|repeat split].
  cbn [context_new c_adaption_state]. rewrite (proj1 (f64_lit_exact 1 0 ltac:(lia) ltac:(lia))). cbn. now rewrite Rmult_1_l.
Qed.
