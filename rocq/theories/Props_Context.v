(** C46-C49: plug-ins and contexts. *)
From Coq Require Import String.
From Coq Require Import Reals.
From Flocq Require Import Core IEEE754.BinarySingleNaN.
From Verif Require Import M_Base M_F64 M_FileFile M_Signature M_Context M_Profile S_Bytes S_Profile S_Context P_Context Props_Endian Props_Profile.
Local Open Scope list_scope.
Local Open Scope Z_scope.

(** C46 *)
Theorem C46_accepted_iff :
  forall w c p, fst (fst (init_plugin w c p)) = SOk <-> Forall acceptable (removelast (chain p)).
Proof. exact init_ok_iff. Qed.
Print Assumptions C46_accepted_iff.

Definition plug (m t : string) (v : Z) (next : option Plugin) : Plugin := mkPlugin (code m) v (code t) (PT_Formatter 3%nat) next.

(** The last plug-in is not looked at. *)
Theorem C46_single_plugin_checked_refuted :
  init_plugin no_world (context_new None) (plug "junk" "nope" 9999 None) = (SOk, context_new None, []).
Proof. reflexivity. Qed.
Print Assumptions C46_single_plugin_checked_refuted.

Example C46_good_chain :
  let p := plug "acpp" "parH" 2131 (Some (plug "acpp" "xfmH" 2000 (Some (plug "acpp" "tagH" 0 None)))) in
  List.length (validated p) = 2%nat /\ Forall acceptable (validated p).
Proof. split; [reflexivity|]. repeat constructor; cbn; try lia; tauto. Qed.

(** C47 *)
Theorem C47_report :
  forall w c p,
    let '(r, c', ev) := init_plugin w c p in
    match r with
    | SOk => c' = c /\ ev = []
    | SErr t => ev = [(EC_UnknownExtension, t)] /\ c' = call_handler w c EC_UnknownExtension t /\
        exists pre bad post, removelast (chain p) = pre ++ bad :: post /\ Forall acceptable pre /\ complaint w bad t
    end.
Proof. exact init_report. Qed.
Print Assumptions C47_report.

Theorem C47_one_complaint :
  forall w p t t', complaint w p t -> complaint w p t' -> t = t'.
Proof. exact complaint_fun. Qed.
Print Assumptions C47_one_complaint.

Example C47_example :
  init_plugin no_world (context_new None)
    (plug "acpp" "parH" 2131 (Some (plug "acpp" "nope" 2132 (Some (plug "oops" "tagH" 0 (Some (plug "acpp" "tagH" 0 None))))))) =
  (let t := text "plugin needs Little CMS 2132, current version is 2131" in
   (SErr t, context_new None, [(EC_UnknownExtension, t)])).
Proof. reflexivity. Qed.
Example C47_example_type :
  fst (fst (init_plugin no_world (context_new None) (plug "acpp" "nope" 2131 (Some (plug "acpp" "tagH" 0 None))))) =
  SErr (text "Unrecognized plugin type 'Signature { value: nope }'").
Proof. reflexivity. Qed.

(** C48 *)
Theorem C48_context_is_stable :
  forall e w data ops, fold_left (apply_op e w) ops (context_new data) = context_new data.
Proof. exact ops_keep. Qed.
Print Assumptions C48_context_is_stable.

Theorem C48_defaults :
  forall data, let c := context_new data in
    get_user_data c = data /\ c_alarm_codes c = repeat 32512 3 ++ repeat 0 13 /\ B2R (c_adaption_state c) = 1%R /\
    c_curves c = [] /\ c_formatters c = [] /\ c_tag_types c = [] /\ c_tags c = [] /\ c_intents c = [] /\
    c_mpe_types c = [] /\ c_optimizations c = [] /\ c_transforms c = [].
Proof. exact defaults. Qed.
Print Assumptions C48_defaults.

Example C48_example :
  let ops := [OpSignal EC_Range (text "x"); OpPlugin (plug "oops" "tagH" 0 (Some (plug "acpp" "tagH" 0 None)));
              OpOpen today [] (disk huge_tag) 7%nat ModeRead; OpOpen today [] (disk srgb_file) 7%nat ModeWrite] in
  get_user_data (fold_left (apply_op pc noting) ops (context_new (Some [1; 2; 3]))) = Some [1; 2; 3].
Proof. cbv zeta. rewrite ops_keep. reflexivity. Qed.

(** C49: the list is in the order of the variants. *)
Theorem C49_exactly_one_predicate :
  forall d i, (i < 9)%nat ->
    nth i (map (fun f => f d)
      [is_interpolation; is_parametric_curves; is_formatter; is_tag_type; is_tag; is_rendering_intent;
       is_multi_process_element; is_optimization; is_transform]) false =
    Nat.eqb i (match d with
      | PT_Interpolation _ => 0 | PT_ParametricCurve _ _ _ _ => 1 | PT_Formatter _ => 2 | PT_TagType _ => 3 | PT_Tag _ _ => 4
      | PT_RenderingIntent _ _ _ => 5 | PT_MultiProcessElement _ => 6 | PT_Optimization _ => 7 | PT_Transform _ => 8 end).
Proof. exact predicates_spec. Qed.
Print Assumptions C49_exactly_one_predicate.
Example C49_example : is_tag (PT_Tag 5 1%nat) = true /\ is_tag (PT_TagType 1%nat) = false.
Proof. split; reflexivity. Qed.
