(** Signatures: lemmas behind C23-C26. *)
From Coq Require Import ZifyBool String.
From Verif Require Import M_Base M_Signature M_SigTables S_Bytes S_Text S_SigTables P_Bytes P_Endian.
Local Open Scope Z_scope.
Local Open Scope list_scope.

(** ** Construction *)
Lemma four_bytes l : are_bytes l -> are_bytes (four l).
Proof.
  intros H. unfold four, are_bytes. apply Forall_forall. intros x Hx.
  assert (In x (l ++ [32; 32; 32; 32])).
  { rewrite <- (firstn_skipn 4 (l ++ _)). apply in_or_app. auto. }
  apply in_app_or in H0 as [H0|H0].
  - unfold are_bytes in H. rewrite Forall_forall in H. auto.
  - simpl in H0. unfold is_byte. lia.
Qed.
Lemma four_length l : List.length (four l) = 4%nat.
Proof. unfold four. rewrite firstn_length, app_length. simpl List.length. lia. Qed.

Lemma slice_four l : are_bytes l -> sig_of_slice l = Ok (big_value (four l)).
Proof.
  intros H. rewrite <- be_val_spec.
  unfold sig_of_slice, sig_of_array4, four. destruct l as [|a [|b [|c [|d r]]]]; reflexivity.
Qed.

Lemma array_short_four l : (List.length l <= 4)%nat -> are_bytes l -> sig_of_array_short (List.length l) l = Ok (big_value (four l)).
Proof.
  intros L H. rewrite <- be_val_spec.
  unfold sig_of_array_short, four. destruct l as [|a [|b [|c [|d [|? ?]]]]]; simpl in L; try lia; reflexivity.
Qed.

Lemma new_four l : List.length l = 4%nat -> are_bytes l -> sig_new l = big_value (four l) /\ sig_of_array4 l = big_value (four l).
Proof.
  intros L H. rewrite <- be_val_spec.
  unfold sig_new, sig_of_array4, four. destruct l as [|a [|b [|c [|d [|? ?]]]]]; simpl in L; try lia. split; reflexivity.
Qed.

(** ** Lossless conversions *)
Lemma sig_bytes_back s : is_uint 4 s -> sig_new (sig_to_bytes s) = s.
Proof. intros. unfold sig_new, sig_to_bytes. rewrite be_val_bytes. now apply uint_mod. Qed.
Lemma bytes_sig_back l : are_bytes l -> List.length l = 4%nat -> sig_to_bytes (sig_new l) = l.
Proof. intros H L. unfold sig_new, sig_to_bytes. rewrite <- L. now apply be_bytes_val. Qed.

Lemma sig_eq_bytes a b : is_uint 4 a -> is_uint 4 b -> (sig_eqb a b = true <-> sig_to_bytes a = sig_to_bytes b).
Proof.
  intros Ha Hb. unfold sig_eqb. rewrite Z.eqb_eq. split; [now intros ->|].
  intros H. rewrite <- (sig_bytes_back a Ha), <- (sig_bytes_back b Hb). now f_equal.
Qed.

(** ** UTF-8 *)
Ltac dm := Z.to_euclidean_division_equations; lia.

Lemma cs_cons c cs : is_scalar c -> Forall is_scalar cs -> Forall is_scalar (c :: cs).
Proof. now constructor. Qed.

Lemma utf8_sound f : forall l, are_bytes l -> utf8_ok_fuel f l = true -> is_text l.
Proof.
  unfold are_bytes. induction f as [|f IH]; intros l HB H; cbn [utf8_ok_fuel] in H.
  { destruct l; [|discriminate]. exists []. auto. }
  destruct l as [|b0 r]; [exists []; auto|].
  inversion HB as [|? ? B0 HB0]; subst. unfold is_byte in B0.
  assert (K : forall c (l r : list Z), utf8_char c = l -> is_scalar c -> is_text r -> is_text (l ++ r)).
  { intros c l r' E S (cs & Hcs & Er). exists (c :: cs). split; [now constructor|]. cbn. now rewrite E, Er. }
  unfold in_range, is_cont in H.
  destruct (b0 <? 128) eqn:E1.
  { apply (K b0 [b0]); [unfold utf8_char; now rewrite E1 | unfold is_scalar; lia | now apply IH]. }
  unfold in_range in H.
  destruct ((194 <=? b0) && (b0 <=? 223)) eqn:E2.
  { destruct r as [|b1 r1]; [discriminate|]. inversion HB0 as [|? ? B1 HB1]; subst. unfold is_byte in B1.
    apply andb_true_iff in H as [C1 H].
    apply (K ((b0 - 192) * 64 + (b1 - 128)) [b0; b1]); [|unfold is_scalar; lia|now apply IH].
    unfold utf8_char.
    replace ((b0 - 192) * 64 + (b1 - 128) <? 128) with false by lia.
    replace ((b0 - 192) * 64 + (b1 - 128) <? 2048) with true by lia.
    repeat f_equal; dm. }
  destruct ((224 <=? b0) && (b0 <=? 239)) eqn:E3.
  { destruct r as [|b1 [|b2 r2]]; [discriminate|discriminate|].
    inversion HB0 as [|? ? B1 HB1]; subst. inversion HB1 as [|? ? B2 HB2]; subst. unfold is_byte in B1, B2.
    apply andb_true_iff in H as [C H].
    set (c := (b0 - 224) * 4096 + (b1 - 128) * 64 + (b2 - 128)).
    apply (K c [b0; b1; b2]); [|unfold is_scalar; lia|now apply IH].
    unfold utf8_char.
    replace (c <? 128) with false by lia. replace (c <? 2048) with false by lia. replace (c <? 65536) with true by lia.
    unfold c in *. repeat f_equal; dm. }
  destruct ((240 <=? b0) && (b0 <=? 244)) eqn:E4; [|discriminate].
  destruct r as [|b1 [|b2 [|b3 r3]]]; [discriminate|discriminate|discriminate|].
  inversion HB0 as [|? ? B1 HB1]; subst. inversion HB1 as [|? ? B2 HB2]; subst.
  inversion HB2 as [|? ? B3 HB3]; subst. unfold is_byte in B1, B2, B3.
  apply andb_true_iff in H as [C H].
  set (c := (b0 - 240) * 262144 + (b1 - 128) * 4096 + (b2 - 128) * 64 + (b3 - 128)).
  apply (K c [b0; b1; b2; b3]); [|unfold is_scalar; lia|now apply IH].
  unfold utf8_char.
  replace (c <? 128) with false by lia. replace (c <? 2048) with false by lia. replace (c <? 65536) with false by lia.
  unfold c in *. repeat f_equal; dm.
Qed.

Lemma utf8_step f c r : is_scalar c -> utf8_ok_fuel (S f) (utf8_char c ++ r) = utf8_ok_fuel f r.
Proof.
  intros [Hc Hs]. unfold utf8_char.
  destruct (c <? 128) eqn:E1.
  { cbn [app utf8_ok_fuel]. now rewrite E1. }
  destruct (c <? 2048) eqn:E2.
  { cbn [app utf8_ok_fuel]. unfold in_range, is_cont, in_range.
    assert (2 <= c / 64 < 32 /\ 0 <= c mod 64 < 64) by dm. set (a := c / 64) in *. set (b := c mod 64) in *. clearbody a b.
    replace (192 + a <? 128) with false by lia.
    replace ((194 <=? 192 + a) && (192 + a <=? 223)) with true by lia.
    replace ((128 <=? 128 + b) && (128 + b <=? 191)) with true by lia. reflexivity. }
  destruct (c <? 65536) eqn:E3.
  { cbn [app utf8_ok_fuel]. unfold in_range, is_cont, in_range.
    assert (0 <= c / 4096 < 16 /\ 0 <= c / 64 mod 64 < 64 /\ 0 <= c mod 64 < 64 /\
            c = c / 4096 * 4096 + c / 64 mod 64 * 64 + c mod 64) by dm.
    set (a := c / 4096) in *. set (b := c / 64 mod 64) in *. set (d := c mod 64) in *. clearbody a b d.
    replace (224 + a <? 128) with false by lia.
    replace ((194 <=? 224 + a) && (224 + a <=? 223)) with false by lia.
    replace ((224 <=? 224 + a) && (224 + a <=? 239)) with true by lia.
    match goal with |- ?x && ?y && _ = _ => replace x with true by lia; replace y with true by lia end.
    reflexivity. }
  cbn [app utf8_ok_fuel]. unfold in_range, is_cont, in_range.
  assert (0 <= c / 262144 < 5 /\ 0 <= c / 4096 mod 64 < 64 /\ 0 <= c / 64 mod 64 < 64 /\ 0 <= c mod 64 < 64 /\
          c = c / 262144 * 262144 + c / 4096 mod 64 * 4096 + c / 64 mod 64 * 64 + c mod 64) by dm.
  set (a := c / 262144) in *. set (x := c / 4096 mod 64) in *.
  set (b := c / 64 mod 64) in *. set (d := c mod 64) in *. clearbody a b d x.
  replace (240 + a <? 128) with false by lia.
  replace ((194 <=? 240 + a) && (240 + a <=? 223)) with false by lia.
  replace ((224 <=? 240 + a) && (240 + a <=? 239)) with false by lia.
  replace ((240 <=? 240 + a) && (240 + a <=? 244)) with true by lia.
  match goal with |- ?x && ?y && ?z && _ = _ => replace x with true by lia; replace y with true by lia; replace z with true by lia end.
  reflexivity.
Qed.

Lemma utf8_complete cs : Forall is_scalar cs -> forall f, (List.length cs <= f)%nat ->
  utf8_ok_fuel f (flat_map utf8_char cs) = true.
Proof.
  induction 1 as [|c cs Hc Hcs IH]; intros f Hf.
  - destruct f; reflexivity.
  - destruct f; [simpl in Hf; lia|]. cbn [flat_map]. rewrite utf8_step by exact Hc. apply IH. simpl in Hf. lia.
Qed.

Lemma flat_map_len cs : (List.length cs <= List.length (flat_map utf8_char cs))%nat.
Proof.
  induction cs as [|c cs IH]; [simpl; lia|]. cbn [flat_map]. rewrite app_length.
  assert (1 <= List.length (utf8_char c))%nat.
  { unfold utf8_char. destruct (c <? 128), (c <? 2048), (c <? 65536); simpl; lia. }
  simpl. lia.
Qed.

Lemma utf8_ok_iff l : are_bytes l -> (utf8_ok l = true <-> is_text l).
Proof.
  intros HB. split; [now apply utf8_sound|].
  intros (cs & Hcs & ->). apply utf8_complete; [exact Hcs|apply flat_map_len].
Qed.

(** ** Strings *)
Lemma sig_bytes_are_bytes s : are_bytes (sig_to_bytes s).
Proof. apply be_bytes_bytes. Qed.

Lemma four_of_four l : List.length l = 4%nat -> four l = l.
Proof. intros L. unfold four. rewrite firstn_app, L, Nat.sub_diag, firstn_O, app_nil_r. rewrite <- L. apply firstn_all. Qed.

Lemma sig_string s : is_uint 4 s ->
  (is_text (sig_to_bytes s) -> sig_to_string s = sig_to_bytes s /\ sig_of_str (sig_to_string s) = Ok s) /\
  (~ is_text (sig_to_bytes s) -> sig_to_string s = [32; 32; 32; 32] /\ sig_of_str (sig_to_string s) = Ok sig_default).
Proof.
  intros Hs. pose proof (sig_bytes_are_bytes s) as HB.
  assert (L : List.length (sig_to_bytes s) = 4%nat) by apply be_bytes_length.
  unfold sig_to_string. fold (sig_to_bytes s). split; intros H.
  - rewrite (proj2 (utf8_ok_iff _ HB) H). split; [reflexivity|].
    unfold sig_of_str. rewrite slice_four by exact HB. rewrite four_of_four by exact L.
    rewrite <- be_val_spec. f_equal. now apply sig_bytes_back.
  - destruct (utf8_ok (sig_to_bytes s)) eqn:E; [exfalso; apply H; now apply utf8_ok_iff|].
    split; reflexivity.
Qed.

(** ** Tables *)

Lemma tables_match :
  tbl_tag_type = reference c_tag_type /\ tbl_tag = reference c_tag /\
  tbl_color_space = reference c_color_space /\ tbl_profile_class = reference c_profile_class /\
  tbl_platform = reference c_platform /\ tbl_stage = reference c_stage /\
  tbl_curve_segment = reference c_curve_segment.
Proof. repeat split; vm_compute; reflexivity. Qed.

Local Open Scope string_scope.
Lemma technology_matches_but_one :
  removelast tbl_technology = removelast (reference c_technology) /\
  last tbl_technology ("", 0) = ("DIGITAL_CINEMA_PROJECTOR", sig_new [100; 99; 112; 106]) /\
  last (reference c_technology) ("", 0) = ("DIGITAL_CINEMA_PROJECTOR", sig_new [100; 99; 106; 112]).
Proof. repeat split; vm_compute; reflexivity. Qed.


Definition pair_in (p : string * string) (l : list (string * string)) : bool :=
  existsb (fun q => String.eqb (fst p) (fst q) && String.eqb (snd p) (snd q)) l.
Lemma pair_in_iff p l : pair_in p l = true -> In p l.
Proof.
  intros H. apply existsb_exists in H as (q & Hq & E). apply andb_true_iff in E as [E1 E2].
  apply String.eqb_eq in E1, E2. destruct p, q. simpl in *. now subst.
Qed.
Definition alias_freeb allowed (t : list (string * Signature)) : bool :=
  forallb (fun a => forallb (fun b =>
    negb (Z.eqb (snd a) (snd b)) || String.eqb (fst a) (fst b)
    || pair_in (fst a, fst b) allowed || pair_in (fst b, fst a) allowed) t) t.
Lemma alias_freeb_ok allowed t : alias_freeb allowed t = true -> alias_free allowed t.
Proof.
  intros H n1 n2 v H1 H2. unfold alias_freeb in H. rewrite forallb_forall in H.
  specialize (H _ H1). rewrite forallb_forall in H. specialize (H _ H2). simpl in H.
  rewrite Z.eqb_refl in H. simpl in H.
  apply orb_true_iff in H as [H|H]; [apply orb_true_iff in H as [H|H]|].
  - left. now apply String.eqb_eq.
  - right. left. now apply pair_in_iff.
  - right. right. now apply pair_in_iff.
Qed.


Lemma tables_unambiguous :
  alias_free [] tbl_tag_type /\ alias_free tag_aliases tbl_tag /\ alias_free [] tbl_technology /\
  alias_free [] tbl_color_space /\ alias_free [] tbl_profile_class /\ alias_free [] tbl_platform /\
  alias_free [] tbl_stage /\ alias_free [] tbl_curve_segment /\ alias_free [] tbl_misc /\ alias_free [] tbl_plugin_type.
Proof. repeat split; apply alias_freeb_ok; vm_compute; reflexivity. Qed.

Lemma names_unique :
  NoDup (map fst tbl_tag_type) /\ NoDup (map fst tbl_tag) /\ NoDup (map fst tbl_technology) /\
  NoDup (map fst tbl_color_space) /\ NoDup (map fst tbl_profile_class) /\ NoDup (map fst tbl_platform) /\
  NoDup (map fst tbl_stage) /\ NoDup (map fst tbl_curve_segment) /\ NoDup (map fst tbl_misc) /\ NoDup (map fst tbl_plugin_type).
Proof.
  assert (K : forall l, (fix nd (l : list string) := match l with [] => true | a :: r => negb (existsb (String.eqb a) r) && nd r end) l = true -> NoDup l).
  { induction l as [|a r IH]; intros H; [constructor|]. apply andb_true_iff in H as [H1 H2].
    constructor; [|now apply IH]. intros Hin. apply negb_true_iff in H1.
    assert (existsb (String.eqb a) r = true); [|congruence].
    apply existsb_exists. exists a. split; [exact Hin|apply String.eqb_refl]. }
  repeat split; apply K; vm_compute; reflexivity.
Qed.
