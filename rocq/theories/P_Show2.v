(** The debugging texts of the crate's types. *)
From Coq Require Import String.
From Verif Require Import M_Base M_Signature M_Context M_Header M_Curve M_FileNull M_FileMem M_Debug M_Show S_Bytes S_Text S_Debug S_Header S_Show P_Debug P_Show.
Local Open Scope list_scope.
Local Open Scope Z_scope.

Lemma texts_tell {A} (ok : A -> Prop) show : (forall a, ok a -> well_formed (show a)) -> (forall a b, ok a -> ok b -> show a = show b -> a = b) -> tells ok show.
Proof.
  intros W I u a b A1 B1. split; intros E; apply I; auto.
  - destruct (compact_reads u (show a) (W a A1) (show b) [] []) as (H & _); auto; [now left..|now rewrite !app_nil_r].
  - destruct (pretty_reads u (show a) (W a A1) (show b) [] []) as (H & _); auto; [now left..|now rewrite !app_nil_r].
Qed.

Definition ident_charb (c : Z) : bool := (65 <=? c) && (c <=? 90) || (97 <=? c) && (c <=? 122) || (48 <=? c) && (c <=? 57) || (c =? 95).
Definition identb (n : string) : bool :=
  forallb ident_charb (text n) && match text n with [] => false | c :: _ => negb ((48 <=? c) && (c <=? 57)) end.
Lemma identb_ident n : identb n = true -> ident n.
Proof.
  unfold identb. intros H. apply andb_true_iff in H as (A & B). split.
  - apply Forall_forall. rewrite forallb_forall in A. intros c I. specialize (A c I). unfold ident_charb, ident_char in *. lia.
  - destruct (text n) as [|c r]; [discriminate|]. exists c, r. split; [reflexivity|lia].
Qed.
Ltac idn := apply identb_ident; vm_compute; reflexivity.
(** Field by field. *)
Lemma wf_struct n l : ident n -> l <> [] -> Forall field_ok l -> well_formed (SStruct n l).
Proof.
  intros I N F. split; [exact I|]. split; [exact N|]. apply (forall_fold (fun f : string * shown => let (name, v) := f in ident name /\ well_formed v)).
  eapply Forall_impl; [|exact F]. now intros (? & ?).
Qed.
Ltac wfs := apply wf_struct; [idn|discriminate|repeat (apply Forall_cons; [split; [idn|cbn [snd]]|]); [..|apply Forall_nil]].
Lemma wf_list {A} (f : A -> shown) l : Forall (fun x => well_formed (f x)) l -> well_formed (SList (map f l)).
Proof. intros F. apply forall_fold. now apply Forall_map. Qed.
Lemma wf_nums l : well_formed (SList (map SNum l)).
Proof. apply wf_list. apply Forall_forall. intros x _. exact I. Qed.
Lemma nums_injective l l' : map SNum l = map SNum l' -> l = l'.
Proof. revert l'. induction l as [|x l IH]; intros [|x' l'] E; try discriminate; [reflexivity|]. injection E as -> E. now rewrite (IH _ E). Qed.
Lemma ascii_is_text l : Forall (fun c => 0 <= c < 128) l -> is_text l.
Proof. intros F. exists l. destruct (ascii_text l F) as (A & B). now split. Qed.
Lemma wf_fn_ptr : well_formed fn_ptr.
Proof. apply ascii_is_text. vm_compute. repeat constructor; discriminate. Qed.
Lemma wf_sig s : is_uint 4 s -> well_formed (show_sig s).
Proof. intros U. unfold show_sig. wfs. now apply debug_value_text. Qed.
Lemma wf_id p : are_bytes p -> well_formed (show_id p).
Proof. intros U. unfold show_id. wfs. now apply value_text. Qed.
Lemma wf_date d : well_formed (show_date d).
Proof. unfold show_date. wfs; exact I. Qed.
Lemma wf_xyz d : well_formed (show_xyz d).
Proof. unfold show_xyz. wfs; exact I. Qed.
Lemma wf_header h : header_wf h -> well_formed (show_header h).
Proof.
  unfold header_wf. intros H. unfold show_header. wfs; try exact I; try (apply wf_sig; tauto); [apply wf_date|apply wf_xyz|apply wf_id; tauto|apply wf_nums].
Qed.
Lemma wf_tag t : tag_wf t -> well_formed (show_tag_entry t).
Proof. intros (A & _). unfold show_tag_entry. wfs; [now apply wf_sig|exact I..]. Qed.

Lemma sig_same a b : is_uint 4 a -> is_uint 4 b -> show_sig a = show_sig b -> a = b.
Proof. intros A B [= E]. now apply debug_value_injective. Qed.
Lemma id_same p q : are_bytes p -> are_bytes q -> show_id p = show_id q -> p = q.
Proof. intros A B [= E]. exact (rows_injective p A q B E). Qed.
Lemma date_same a b : show_date a = show_date b -> a = b.
Proof. destruct a, b. intros [= -> -> -> -> -> ->]. reflexivity. Qed.
Lemma xyz_same a b : show_xyz a = show_xyz b -> a = b.
Proof. destruct a, b. intros [= -> -> ->]. reflexivity. Qed.
Lemma struct_same n l l' : SStruct n l = SStruct n l' -> l = l'.
Proof. now intros [= ->]. Qed.
Lemma field_same f v v' l l' : (f, v) :: l = (f, v') :: l' -> v = v' /\ l = l' :> list (string * shown).
Proof. now intros [= -> ->]. Qed.
Lemma num_same n n' : SNum n = SNum n' -> n = n'.
Proof. now intros [= ->]. Qed.
Lemma list_same l l' : SList (map SNum l) = SList (map SNum l') -> l = l'.
Proof. intros [= E]. now apply nums_injective. Qed.
Ltac fields E := apply struct_same in E; repeat (apply field_same in E as (?F & E)); clear E.
Lemma header_same a b : header_wf a -> header_wf b -> show_header a = show_header b -> a = b.
Proof.
  unfold header_wf. intros A B E. unfold show_header in E. fields E.
  repeat match goal with
         | F : SNum _ = SNum _ |- _ => apply num_same in F
         | F : show_sig _ = show_sig _ |- _ => apply sig_same in F; [|tauto..]
         | F : show_date _ = show_date _ |- _ => apply date_same in F
         | F : show_xyz _ = show_xyz _ |- _ => apply xyz_same in F
         | F : show_id _ = show_id _ |- _ => apply id_same in F; [|tauto..]
         | F : SList _ = SList _ |- _ => apply list_same in F
         end.
  clear A B. destruct a, b. cbn in *. now subst.
Qed.
Lemma tag_same a b : tag_wf a -> tag_wf b -> show_tag_entry a = show_tag_entry b -> a = b.
Proof.
  intros (A & _) (B & _) E. unfold show_tag_entry in E. fields E. apply sig_same in F; [|assumption..]. apply num_same in F0, F1. destruct a, b. cbn in *. congruence.
Qed.

Lemma header_tells : tells header_wf show_header /\ tells tag_wf show_tag_entry /\ tells (fun _ => True) show_date /\ tells (fun _ => True) show_xyz.
Proof.
  repeat split; [apply (texts_tell header_wf)|apply (texts_tell header_wf)|apply (texts_tell tag_wf)|apply (texts_tell tag_wf)|apply (texts_tell (fun _ => True))
    |apply (texts_tell (fun _ => True))|apply (texts_tell (fun _ => True))|apply (texts_tell (fun _ => True))]; auto using wf_header, wf_tag, wf_date, wf_xyz, header_same, tag_same, date_same, xyz_same.
Qed.

(** Plug-ins, chunks and handlers. *)
Lemma map_same {A} (f : A -> shown) (ok : A -> Prop) : (forall a b, ok a -> ok b -> f a = f b -> a = b) -> forall l l', Forall ok l -> Forall ok l' -> map f l = map f l' -> l = l'.
Proof.
  intros H. induction l as [|x l IH]; intros [|x' l'] F F' E; try discriminate; [reflexivity|]. injection E as E1 E2. inversion F; inversion F'; subst.
  f_equal; [now apply H|now apply IH].
Qed.
Lemma curves_tell : tells (fun _ => True) show_curves.
Proof.
  apply texts_tell.
  - intros l _. unfold show_curves. wfs; [|apply wf_fn_ptr]. apply wf_list. apply Forall_forall. intros c _. unfold show_curve. wfs; exact I.
  - intros l l' _ _ E. unfold show_curves in E. fields E. injection F as F. apply (map_same show_curve (fun _ => True)) in F; auto; [|apply Forall_forall; auto..].
    intros (i & k) (i' & k') _ _ G. unfold show_curve in G. fields G. apply num_same in F1, F2. cbn in *. f_equal; lia.
Qed.
Lemma tag_items_tell : tells (fun t : Signature * Z * list Signature => is_uint 4 (fst (fst t)) /\ Forall (is_uint 4) (snd t)) (fun t => show_tag_item (fst (fst t)) (snd (fst t)) (snd t)).
Proof.
  apply texts_tell.
  - intros ((s & n) & l) (S & L). cbn in *. unfold show_tag_item, show_descriptor. wfs; [now apply wf_sig|]. wfs; [exact I| |apply wf_fn_ptr]. apply wf_list.
    eapply Forall_impl; [|exact L]. exact wf_sig.
  - intros ((s & n) & l) ((s' & n') & l') (S & L) (S' & L') E. cbn [fst snd] in *. unfold show_tag_item, show_descriptor in E. fields E. fields F0.
    apply sig_same in F; try assumption. apply num_same in F1. injection F2 as F2. apply (map_same show_sig (is_uint 4)) in F2; try assumption; [congruence|]. exact sig_same.
Qed.
Lemma type_handlers_tell : tells (fun t : Signature * Z => is_uint 4 (fst t)) (fun t => show_type_handler (fst t) (snd t)).
Proof.
  apply texts_tell.
  - intros (s & n) S. cbn in *. unfold show_type_handler. wfs; [now apply wf_sig|exact I|apply wf_fn_ptr..].
  - intros (s & n) (s' & n') S S' E. cbn [fst snd] in *. unfold show_type_handler in E. fields E. apply sig_same in F; try assumption. apply num_same in F0. congruence.
Qed.
Lemma intents_tell : tells (fun t : Signature * list Z => is_uint 4 (fst t) /\ is_text (snd t)) (fun t => show_intent (fst t) (snd t)).
Proof.
  apply texts_tell.
  - intros (s & d) (S & D). cbn in *. unfold show_intent. wfs; [now apply wf_sig|exact D|apply wf_fn_ptr].
  - intros (s & d) (s' & d') (S & D) (S' & D') E. cbn [fst snd] in *. unfold show_intent in E. fields E. apply sig_same in F; try assumption. congruence.
Qed.
Lemma factories_tell : tells (fun _ => True) show_factory.
Proof.
  apply texts_tell.
  - intros b _. unfold show_factory. split; [destruct b; idn|]. split; [discriminate|]. cbn [fold_right]. split; [exact wf_fn_ptr|exact I].
  - intros [] [] _ _ E; try reflexivity; discriminate E.
Qed.
Lemma alarms_tell : tells (fun _ => True) show_alarm_codes.
Proof.
  apply texts_tell.
  - intros l _. unfold show_alarm_codes. wfs. apply wf_nums.
  - intros l l' _ _ E. unfold show_alarm_codes in E. fields E. now apply list_same.
Qed.
Lemma nulls_tell : tells (fun _ => True) show_null.
Proof.
  apply texts_tell.
  - intros l _. unfold show_null. wfs; exact I.
  - intros (p & n) (p' & n') _ _ E. unfold show_null in E. fields E. apply num_same in F, F0. cbn in *. congruence.
Qed.
Lemma mems_tell g : tells (fun f => growable f = g) show_mem.
Proof.
  apply texts_tell.
  - intros l _. unfold show_mem. wfs. wfs; [apply wf_nums|exact I].
  - intros [p n k] [p' n' k'] <- G E. cbn [growable] in G. subst p'. unfold show_mem in E. fields E. fields F. apply list_same in F0. apply num_same in F1. cbn in *. congruence.
Qed.
Lemma errors_tell : tells (fun _ => True) show_error.
Proof.
  apply texts_tell.
  - intros c _. destruct c; cbn; idn.
  - intros c c' _ _ E. destruct c, c'; first [reflexivity|discriminate E].
Qed.

(** No line break in [{:?}]. *)
Lemma no_break_text n : ident n -> ~ In 10 (text n).
Proof. intros (F & _) I. rewrite Forall_forall in F. specialize (F _ I). unfold ident_char in F. lia. Qed.
Lemma no_break_join l : Forall (fun x => ~ In 10 x) l -> ~ In 10 (join l).
Proof.
  induction 1 as [|x l X F IH]; [now intros []|]. destruct l as [|y l]; [exact X|]. cbn [join]. intros I. apply in_app_or in I as [I|I]; [easy|].
  apply in_app_or in I as [I|I]; [cbn in I; lia|easy].
Qed.
Lemma no_break_num n : ~ In 10 (show_num n).
Proof.
  unfold show_num. destruct (Z.ltb_spec n 0) as [L|L]; intros I.
  - destruct I as [I|I]; [lia|]. destruct (decimal_digits (- n)) as (F & _); [lia|]. rewrite Forall_forall in F. specialize (F _ I). lia.
  - destruct (decimal_digits n L) as (F & _). rewrite Forall_forall in F. specialize (F _ I). lia.
Qed.
Lemma compact_one_line u v : well_formed v -> ~ In 10 (compact u v).
Proof.
  induction v as [n|l|n|l|n l IH|l IH|n l IH] using shown_ind'; intros W.
  - apply no_break_num.
  - pose proof (no_break_quoted u l W) as B. unfold line_breaks in B. now apply (count_occ_not_In Z.eq_dec).
  - now apply no_break_text.
  - destruct W as (F & _). intros I. rewrite Forall_forall in F. destruct (F _ I) as [A|A]; [unfold ident_char in A; lia|cbn in A; lia].
  - destruct W as (I & N & F). apply forall_fold in F. rewrite compact_tuple by exact N. rewrite !in_app_iff. intros [H|[H|[H|H]]]; [now apply (no_break_text n I)|cbn in H; lia| |cbn in H; lia].
    revert H. apply no_break_join. apply Forall_map. rewrite Forall_forall in *. auto.
  - cbn [well_formed] in W. apply forall_fold in W. cbn [compact]. rewrite !in_app_iff. intros [H|[H|H]]; [cbn in H; lia| |cbn in H; lia].
    revert H. apply no_break_join. apply Forall_map. rewrite Forall_forall in *. auto.
  - pose proof (fields_ok _ _ W) as F. destruct W as (I & N & _). rewrite compact_struct by exact N. rewrite !in_app_iff. intros [H|[H|[H|H]]]; [now apply (no_break_text n I)|cbn in H; lia| |cbn in H; lia].
    revert H. apply no_break_join. apply Forall_map. rewrite Forall_forall in *. intros f J. destruct (F f J) as (A & B). unfold field_text. rewrite !in_app_iff.
    intros [H|[H|H]]; [now apply (no_break_text _ A)|cbn in H; lia|now apply (IH f J B)].
Qed.

(** The texts of signatures and identifiers are the ones modelled separately. *)
Lemma pad_no_break l b : ~ In 10 l -> l <> [] -> forall r, pad_lines b (l ++ r) = (if b then text "    " else []) ++ l ++ pad_lines false r.
Proof.
  revert b. induction l as [|c l IH]; intros b N E r; [easy|]. cbn [app pad_lines]. assert (C : (c =? 10) = false) by (cbn in N; lia). rewrite C.
  destruct l as [|c' l]; [now destruct b|]. rewrite IH; [now destruct b|cbn in *; tauto|discriminate].
Qed.
Lemma sig_texts u s : is_uint 4 s -> compact u (show_sig s) = sig_debug u s /\ pretty u (show_sig s) = sig_debug_pretty u s.
Proof.
  intros S. split; [reflexivity|]. unfold show_sig, sig_debug_pretty, struct_debug_pretty. cbn [pretty map concat]. unfold entry.
  pose proof (no_break_quoted u _ (debug_value_text s S)) as B. unfold line_breaks in B. apply (count_occ_not_In Z.eq_dec) in B.
  set (q := str_debug u (sig_debug_value s)) in *. clearbody q. rewrite app_nil_r, <- !app_assoc. rewrite (app_assoc (text "value") (text ": ")), (app_assoc _ q).
  rewrite pad_no_break; [|intros I; rewrite !in_app_iff in I; cbn in I; intuition lia|discriminate]. rewrite <- !app_assoc. reflexivity.
Qed.
Lemma id_texts u p : are_bytes p -> compact u (show_id p) = profile_id_debug u p /\ pretty u (show_id p) = profile_id_debug_pretty u p.
Proof.
  intros S. split; [reflexivity|]. unfold show_id, profile_id_debug_pretty, struct_debug_pretty. cbn [pretty map concat]. unfold entry.
  pose proof (no_break_quoted u _ (value_text p S)) as B. unfold line_breaks in B. apply (count_occ_not_In Z.eq_dec) in B.
  set (q := str_debug u (profile_id_value p)) in *. clearbody q. rewrite app_nil_r, <- !app_assoc. rewrite (app_assoc (text "value") (text ": ")), (app_assoc _ q).
  rewrite pad_no_break; [|intros I; rewrite !in_app_iff in I; cbn in I; intuition lia|discriminate]. rewrite <- !app_assoc. reflexivity.
Qed.

(** Error codes. *)
Lemma error_table u c : nth_error error_names (Z.to_nat (error_number c)) = Some (match show_error c with SName n => n | _ => ""%string end) /\
  (exists n, show_error c = SName n /\ compact u (show_error c) = text n) /\ 0 <= error_number c < 14.
Proof. destruct c; (split; [reflexivity|split; [eexists; split; reflexivity|cbn; lia]]). Qed.
Lemma error_numbers a b : (error_number a = error_number b <-> a = b) /\ (error_eqb a b = true <-> a = b).
Proof. unfold error_eqb. rewrite Z.eqb_eq. destruct a, b; cbn; (split; split; intros H; first [reflexivity|discriminate H|lia]). Qed.
Lemma error_all n : 0 <= n < 14 -> exists c, error_number c = n.
Proof.
  intros N. assert (n = 0 \/ n = 1 \/ n = 2 \/ n = 3 \/ n = 4 \/ n = 5 \/ n = 6 \/ n = 7 \/ n = 8 \/ n = 9 \/ n = 10 \/ n = 11 \/ n = 12 \/ n = 13) as H by lia.
  destruct H as [->|[->|[->|[->|[->|[->|[->|[->|[->|[->|[->|[->|[->| ->]]]]]]]]]]]]];
    [exists EC_Undefined|exists EC_File|exists EC_Range|exists EC_Internal|exists EC_Null|exists EC_Read|exists EC_Seek|exists EC_Write|exists EC_UnknownExtension
    |exists EC_ColorSpaceCheck|exists EC_AlreadyDefined|exists EC_BadSignature|exists EC_CorruptionDetected|exists EC_NotSuitable]; reflexivity.
Qed.
Lemma error_order a b c :
  (error_cmp a b = Eq <-> a = b) /\ (error_cmp a b = Lt <-> error_cmp b a = Gt) /\ (error_cmp a b = Lt -> error_cmp b c = Lt -> error_cmp a c = Lt) /\
  (error_cmp a b = Lt <-> error_number a < error_number b).
Proof.
  unfold error_cmp. rewrite !Z.compare_eq_iff, !Z.compare_lt_iff, !Z.compare_gt_iff. destruct (error_numbers a b) as (H & _). repeat split; try tauto; lia.
Qed.
Lemma error_text u c n : show_error c = SName n -> compact u (show_error c) = text n /\ nth_error error_names (Z.to_nat (error_number c)) = Some n.
Proof. intros E. destruct (error_table u c) as (T & _). rewrite E in *. now split. Qed.

Definition all_shown : unicode := mkUnicode (fun c => (32 <=? c) && (c <=? 126)) true.
Definition nl : list Z := [10].
Lemma tag_entry_texts :
  let t := mkTag 1668313716 128 20 in
  tag_wf t /\
  compact all_shown (show_tag_entry t) = text "TagEntry { sig: Signature { value: " ++ dq ++ text "cprt" ++ dq ++ text " }, offset: 128, size: 20 }" /\
  pretty all_shown (show_tag_entry t) =
    text "TagEntry {" ++ nl ++ text "    sig: Signature {" ++ nl ++ text "        value: " ++ dq ++ text "cprt" ++ dq ++ text "," ++ nl ++
    text "    }," ++ nl ++ text "    offset: 128," ++ nl ++ text "    size: 20," ++ nl ++ text "}".
Proof. cbn [t_sig t_offset t_size]. repeat split; try (vm_compute; reflexivity); vm_compute; discriminate. Qed.
Lemma xyz_text : compact all_shown (show_xyz (mkEXYZ 63190 (-65536) 0)) = text "EncodedXYZNumber { x: 63190, y: -65536, z: 0 }".
Proof. vm_compute. reflexivity. Qed.
Lemma null_text : compact all_shown (show_null (mkNull 3 10)) = text "FileNull { pointer: 3, used_space: 10 }" /\
  pretty all_shown (show_mem (mkMem true [] 5)) = text "FileMem {" ++ nl ++ text "    cursor: Cursor {" ++ nl ++ text "        inner: []," ++ nl ++ text "        pos: 5," ++ nl ++ text "    }," ++ nl ++ text "}".
Proof. split; vm_compute; reflexivity. Qed.
(** The header of /repo/resources/test/sRGB_v4_ICC_preference.icc. *)
Definition srgb_bytes : list Z :=
  [0;0;238;32;0;0;0;0;4;32;0;0;115;112;97;99;
   82;71;66;32;76;97;98;32;7;215;0;7;0;25;0;0;
   0;5;0;37;97;99;115;112;0;0;0;0;0;0;0;0;
   0;0;0;0;0;0;0;0;0;0;0;0;0;0;0;0;
   0;0;0;0;0;0;246;214;0;1;0;0;0;0;211;45;
   0;0;0;0;52;86;42;191;153;76;205;6;109;44;87;33;
   208;214;140;93;0;0;0;0;0;0;0;0;0;0;0;0;
   0;0;0;0;0;0;0;0;0;0;0;0;0;0;0;0].
Definition pc_env : env := mkEnv false false true true true false.
(** A text with double quotes written as back quotes. *)
Definition quote (s : string) : list Z := map (fun c => if c =? 96 then 34 else c) (text s).
Lemma more_texts :
  compact all_shown (show_header (header_from_bytes pc_env srgb_bytes)) = quote
    "ICCHeader { size: 60960, cmm_id: Signature { value: `\0\0\0\0` }, version: 69206016, device_class: Signature { value: `spac` }, color_space: Signature { value: `RGB ` }, pcs: Signature { value: `Lab ` }, date: DateTimeNumber { year: 2007, month: 7, day: 25, hours: 0, minutes: 5, seconds: 37 }, magic: Signature { value: `acsp` }, platform: Signature { value: `\0\0\0\0` }, flags: 0, manufacturer: Signature { value: `\0\0\0\0` }, model: 0, attributes: 0, rendering_intent: 0, illuminant: EncodedXYZNumber { x: 63190, y: 65536, z: 54061 }, creator: Signature { value: `\0\0\0\0` }, profile_id: ProfileID { value: ` 34  56  2a  bf  99  4c  cd   6  6d  2c  57  21  d0  d6  8c  5d ` }, reserved: [0, 0, 0, 0, 0, 0, 0, 0, 0, 0, 0, 0, 0, 0, 0, 0, 0, 0, 0, 0, 0, 0, 0, 0, 0, 0, 0, 0] }" /\
  compact all_shown (show_curves [mkCurve (-1) 1; mkCurve 108 5]) = quote
    "ParametricCurves { curves: [Curve { function_curve_id: -1, parameter_count: 1 }, Curve { function_curve_id: 108, parameter_count: 5 }], evaluator: `[Function Ptr]` }" /\
  compact all_shown (show_tag_item 1668313716 1 [1668313716; 0]) = quote
    "TagListItem { signature: Signature { value: `cprt` }, descriptor: TagDescriptor { element_count: 1, supported_types: [Signature { value: `cprt` }, Signature { value: `\0\0\0\0` }], decide_type: `[Function Ptr]` } }" /\
  compact all_shown (show_type_handler 1668313716 4) = quote
    "TypeHandler { signature: Signature { value: `cprt` }, icc_version: 4, read: `[Function Ptr]`, write: `[Function Ptr]` }" /\
  compact all_shown (show_intent 0 (text "Perceptual")) = quote
    "IntentListItem { intent: Signature { value: `\0\0\0\0` }, description: `Perceptual`, link: `[Function Ptr]` }" /\
  compact all_shown (show_factory false) = quote "Legacy(`[Function Ptr]`)" /\ compact all_shown (show_factory true) = quote "Modern(`[Function Ptr]`)" /\
  compact all_shown show_optimization = quote "OptimizationCollectionItem { optimize_ptr: `[Function Ptr]` }" /\
  compact all_shown show_interpolation_chunk = quote "LogErrorChunk { handler: `[Function Pointer]` }" /\
  compact all_shown (show_alarm_codes default_alarm_codes) = quote
    "AlarmCodesChunk { alarm_codes: [32512, 32512, 32512, 0, 0, 0, 0, 0, 0, 0, 0, 0, 0, 0, 0, 0] }" /\
  compact all_shown (show_mem (mkMem true [1; 255] 5)) = quote "FileMem { cursor: Cursor { inner: [1, 255], pos: 5 } }" /\
  pretty all_shown (show_factory true) = text "Modern(" ++ nl ++ quote "    `[Function Ptr]`," ++ nl ++ text ")" /\
  pretty all_shown (show_mem (mkMem true [1; 255] 5)) =
    text "FileMem {" ++ nl ++ text "    cursor: Cursor {" ++ nl ++ text "        inner: [" ++ nl ++ text "            1," ++ nl ++
    text "            255," ++ nl ++ text "        ]," ++ nl ++ text "        pos: 5," ++ nl ++ text "    }," ++ nl ++ text "}".
Proof. repeat split; vm_compute; reflexivity. Qed.

(** Two chunks of different types, one text. *)
Lemma chunks_confused u : compact u show_interpolation_chunk = compact u show_log_error_chunk /\ pretty u show_interpolation_chunk = pretty u show_log_error_chunk.
Proof. now split. Qed.
Lemma chunk_names : names_type show_log_error_chunk "LogErrorChunk" /\ ~ names_type show_interpolation_chunk "InterpolationPluginChunk" /\
  ~ names_type (show_intent 0 []) "IntentsListItem" /\ (forall h, names_type (show_header h) "ICCHeader") /\ (forall l, names_type (show_alarm_codes l) "AlarmCodesChunk").
Proof.
  repeat split; try (intros; eexists; reflexivity); try (intros (l & H); discriminate H).
Qed.
