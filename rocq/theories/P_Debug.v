(** Proofs about debugging texts. *)
From Coq Require Import String.
From Verif Require Import M_Base M_Signature M_Context M_Debug S_Bytes S_Text S_Debug S_Context P_List P_Bytes P_Signature.
Local Open Scope list_scope.
Local Open Scope Z_scope.

(** ** Characters *)
Lemma push_char_utf8 c : push_char c = utf8_char c.
Proof. reflexivity. Qed.

Lemma next_char_step c r : is_scalar c -> next_char (utf8_char c ++ r) = Some (c, r).
Proof.
  intros [Hc Hs]. unfold utf8_char.
  destruct (c <? 128) eqn:E1; [cbn; now rewrite E1|].
  destruct (c <? 2048) eqn:E2; [cbn [app next_char]|].
  { replace (192 + c / 64 <? 128) with false by dm. replace (192 + c / 64 <? 224) with true by dm.
    do 2 f_equal. dm. }
  destruct (c <? 65536) eqn:E3; cbn [app next_char].
  { replace (224 + c / 4096 <? 128) with false by dm. replace (224 + c / 4096 <? 224) with false by dm.
    replace (224 + c / 4096 <? 240) with true by dm.
    do 2 f_equal. dm. }
  replace (240 + c / 262144 <? 128) with false by dm. replace (240 + c / 262144 <? 224) with false by dm.
  replace (240 + c / 262144 <? 240) with false by dm.
  do 2 f_equal. dm.
Qed.

Lemma chars_fuel_text cs : Forall is_scalar cs -> forall f, (List.length cs <= f)%nat ->
  chars_fuel f (flat_map utf8_char cs) = cs.
Proof.
  induction 1 as [|c cs Hc Hcs IH]; intros f Hf; cbn [flat_map].
  - destruct f; reflexivity.
  - destruct f; [simpl in Hf; lia|]. cbn [chars_fuel]. rewrite next_char_step by exact Hc. f_equal. apply IH. simpl in Hf. lia.
Qed.
Lemma chars_text cs : Forall is_scalar cs -> chars (flat_map utf8_char cs) = cs.
Proof. intros H. apply chars_fuel_text; [exact H|apply flat_map_len]. Qed.

Lemma ascii_text l : Forall (fun c => 0 <= c < 128) l -> Forall is_scalar l /\ flat_map utf8_char l = l.
Proof.
  induction 1 as [|c l Hc Hl [IH1 IH2]]; [split; constructor|]. split.
  - constructor; [|exact IH1]. unfold is_scalar. lia.
  - cbn [flat_map]. rewrite IH2. unfold utf8_char. replace (c <? 128) with true by lia. reflexivity.
Qed.
Lemma chars_ascii l : Forall (fun c => 0 <= c < 128) l -> chars l = l.
Proof. intros H. destruct (ascii_text l H) as [H1 H2]. rewrite <- H2 at 1. now apply chars_text. Qed.

(** ** Reading an escape back *)
Definition digit_value (d : Z) : Z := if d <? 58 then d - 48 else d - 87.
Fixpoint read_hex (acc : Z) (l : list Z) : option (Z * list Z) :=
  match l with
  | [] => None
  | d :: r => if d =? 125 then Some (acc, r) else read_hex (acc * 16 + digit_value d) r
  end.
Definition unescape (l : list Z) : option (Z * list Z) :=
  match l with
  | 92 :: 48 :: r => Some (0, r)
  | 92 :: 116 :: r => Some (9, r)
  | 92 :: 114 :: r => Some (13, r)
  | 92 :: 110 :: r => Some (10, r)
  | 92 :: 34 :: r => Some (34, r)
  | 92 :: 92 :: r => Some (92, r)
  | 92 :: 117 :: 123 :: r => read_hex 0 r
  | _ => next_char l
  end.

Definition is_hex (d : Z) : Prop := 48 <= d <= 57 \/ 97 <= d <= 102.
Lemma hex_digit_is_hex d : 0 <= d < 16 -> is_hex (hex_digit d).
Proof. intros H. unfold hex_digit, is_hex. destruct (d <? 10) eqn:E; lia. Qed.
Lemma hex_digit_value d : 0 <= d < 16 -> digit_value (hex_digit d) = d.
Proof. intros H. unfold hex_digit, digit_value. destruct (d <? 10) eqn:E; [replace (48 + d <? 58) with true by lia|replace (87 + d <? 58) with false by lia]; lia. Qed.

Lemma hex_fuel_hex f : forall v, 0 <= v -> Forall is_hex (hex_fuel f v).
Proof.
  induction f as [|f IH]; intros v Hv; cbn [hex_fuel]; [constructor|].
  apply Forall_app. split.
  - destruct (v <? 16); [constructor|]. apply IH. dm.
  - constructor; [|constructor]. apply hex_digit_is_hex. dm.
Qed.
Lemma read_hex_app l : Forall is_hex l -> forall acc r,
  read_hex acc (l ++ 125 :: r) = Some (fold_left (fun a d => a * 16 + digit_value d) l acc, r).
Proof.
  induction 1 as [|d l Hd Hl IH]; intros acc r; [reflexivity|]. cbn [app read_hex fold_left].
  replace (d =? 125) with false by (unfold is_hex in Hd; lia). apply IH.
Qed.
Lemma hex_fuel_value f : forall v, 0 <= v < 16 ^ Z.of_nat f ->
  fold_left (fun a d => a * 16 + digit_value d) (hex_fuel f v) 0 = v.
Proof.
  induction f as [|f IH]; intros v Hv; [cbn in *; lia|]. cbn [hex_fuel].
  rewrite fold_left_app. cbn [fold_left]. rewrite hex_digit_value by dm.
  rewrite Nat2Z.inj_succ, Z.pow_succ_r in Hv by lia.
  destruct (v <? 16) eqn:E; [cbn [fold_left]; dm|]. rewrite IH; [dm|].
  split; [dm|]. apply Z.div_lt_upper_bound; lia.
Qed.

Lemma next_char_unescape x l : x <> 92 -> unescape (x :: l) = next_char (x :: l).
Proof. intros H. unfold unescape. destruct x as [|p|p]; try reflexivity. do 7 (destruct p as [p|p|]; try reflexivity). congruence. Qed.

Lemma unescape_escape u c r : is_scalar c -> unescape (escape u c ++ r) = Some (c, r).
Proof.
  intros Hc. unfold escape.
  destruct ((c =? 0) && u_short_nul u) eqn:E0.
  { apply andb_true_iff in E0 as [E0 _]. apply Z.eqb_eq in E0. now subst. }
  destruct (c =? 9) eqn:E1; [apply Z.eqb_eq in E1; now subst|].
  destruct (c =? 13) eqn:E2; [apply Z.eqb_eq in E2; now subst|].
  destruct (c =? 10) eqn:E3; [apply Z.eqb_eq in E3; now subst|].
  destruct (c =? 34) eqn:E4; [apply Z.eqb_eq in E4; now subst|].
  destruct (c =? 92) eqn:E5; [apply Z.eqb_eq in E5; now subst|].
  destruct (u_shown u c).
  - rewrite push_char_utf8. pose proof (next_char_step c r Hc) as N. revert N. destruct Hc as [Hc Hs]. unfold utf8_char.
    destruct (c <? 128) eqn:F1; [|destruct (c <? 2048) eqn:F2; [|destruct (c <? 65536) eqn:F3]]; cbn [app]; intros N; rewrite next_char_unescape; try exact N; dm.
  - rewrite <- !app_assoc. cbn [app]. change (unescape (92 :: 117 :: 123 :: hex c ++ 125 :: r)) with (read_hex 0 (hex c ++ 125 :: r)).
    destruct Hc as [Hc Hs]. unfold hex. rewrite read_hex_app by (apply hex_fuel_hex; lia). rewrite hex_fuel_value; [reflexivity|].
    change (16 ^ Z.of_nat 8) with 4294967296. lia.
Qed.

Lemma escape_nonempty u c : escape u c <> [].
Proof.
  unfold escape. repeat match goal with |- (if ?b then _ else _) <> _ => destruct b; try discriminate end.
  unfold push_char. repeat match goal with |- (if ?b then _ else _) <> _ => destruct b; try discriminate end.
Qed.

Lemma escape_first_quote u c r r' : is_scalar c -> escape u c ++ r <> 34 :: r'.
Proof.
  intros Hc E. pose proof (unescape_escape u c r Hc) as H. rewrite E in H.
  cbn in H. injection H as <- <-. cbn in E. discriminate.
Qed.

Lemma escapes_injective u cs : Forall is_scalar cs -> forall cs', Forall is_scalar cs' -> forall r r',
  flat_map (escape u) cs ++ 34 :: r = flat_map (escape u) cs' ++ 34 :: r' -> cs = cs' /\ r = r'.
Proof.
  induction 1 as [|c cs Hc Hcs IH]; intros cs' H' r r' E.
  - destruct H' as [|c' cs' Hc' Hcs']; [cbn in E; now injection E|].
    cbn [flat_map app] in E. rewrite <- app_assoc in E. symmetry in E. now apply escape_first_quote in E.
  - destruct H' as [|c' cs' Hc' Hcs'].
    { cbn [flat_map app] in E. rewrite <- app_assoc in E. now apply escape_first_quote in E. }
    cbn [flat_map] in E. rewrite <- !app_assoc in E.
    pose proof (unescape_escape u c (flat_map (escape u) cs ++ 34 :: r) Hc) as H1.
    rewrite E, unescape_escape in H1 by exact Hc'. injection H1 as Ec Er. subst c'.
    apply eq_sym, IH in Er as [-> ->]; auto.
Qed.

Lemma str_debug_injective u l l' r r' : is_text l -> is_text l' -> str_debug u l ++ r = str_debug u l' ++ r' -> l = l' /\ r = r'.
Proof.
  intros (cs & Hcs & ->) (cs' & Hcs' & ->). unfold str_debug. rewrite !chars_text by assumption.
  rewrite <- !app_assoc. cbn [app]. intros E. injection E as E.
  apply escapes_injective in E as [-> ->]; auto.
Qed.

(** ** The text without line breaks *)
Lemma no_break_hex f v : 0 <= v -> ~ In 10 (hex_fuel f v).
Proof. intros Hv H. pose proof (hex_fuel_hex f v Hv) as F. rewrite Forall_forall in F. specialize (F 10 H). unfold is_hex in F. lia. Qed.
Lemma no_break_escape u c : is_scalar c -> ~ In 10 (escape u c).
Proof.
  intros [Hc Hs]. unfold escape.
  destruct ((c =? 0) && u_short_nul u); [cbn; lia|].
  destruct (c =? 9); [cbn; lia|]. destruct (c =? 13); [cbn; lia|]. destruct (c =? 10) eqn:E; [cbn; lia|].
  destruct (c =? 34); [cbn; lia|]. destruct (c =? 92); [cbn; lia|].
  destruct (u_shown u c).
  - unfold push_char. destruct (c <? 128) eqn:F1; [cbn; lia|].
    assert (D : 0 <= c / 64 /\ 0 <= c / 4096 /\ 0 <= c / 262144) by dm.
    assert (M : forall x, 0 <= x mod 64) by (intros x; dm).
    pose proof (M c). pose proof (M (c / 64)). pose proof (M (c / 4096)).
    destruct (c <? 2048) eqn:F2; [|destruct (c <? 65536) eqn:F3]; cbn [In]; lia.
  - rewrite !in_app_iff. intros [H|[H|H]]; [cbn in H; lia|now apply no_break_hex in H; [|lia]|cbn in H; lia].
Qed.
Lemma no_break_quoted u l : is_text l -> line_breaks (str_debug u l) = 0%nat.
Proof.
  intros (cs & Hcs & ->). unfold str_debug. rewrite chars_text by assumption. apply count_occ_not_In.
  rewrite !in_app_iff, in_flat_map. rewrite Forall_forall in Hcs.
  intros [H|[(c & Hin & H)|H]]; [cbn in H; lia|now apply no_break_escape in H; [|auto]|cbn in H; lia].
Qed.

(** ** Listings *)
Lemma hex2_two_columns b : 0 <= b < 256 -> hex2 b = two_columns b.
Proof.
  intros Hb. assert (D : forall d, 0 <= d < 16 -> hex_digit d = digit d).
  { intros d Hd. assert (C : d = 0 \/ d = 1 \/ d = 2 \/ d = 3 \/ d = 4 \/ d = 5 \/ d = 6 \/ d = 7 \/ d = 8 \/ d = 9 \/
      d = 10 \/ d = 11 \/ d = 12 \/ d = 13 \/ d = 14 \/ d = 15) by lia.
    repeat (destruct C as [-> | C]; [reflexivity|]). now subst. }
  unfold hex2, two_columns. destruct (b <? 16) eqn:E; rewrite !D by dm; repeat f_equal. dm.
Qed.
Lemma listing_spec l : are_bytes l -> flat_map (fun b => [32] ++ hex2 b ++ [32]) l = listing l.
Proof.
  unfold listing. rewrite flat_map_concat_map. intros H. f_equal. apply map_ext_in. intros b Hb.
  unfold are_bytes in H. rewrite Forall_forall in H. specialize (H b Hb). unfold is_byte in H. now rewrite hex2_two_columns.
Qed.
Lemma hex2_injective b b' : 0 <= b < 256 -> 0 <= b' < 256 -> hex2 b = hex2 b' -> b = b'.
Proof.
  intros H H' E. unfold hex2 in E.
  assert (Q : forall x y, 0 <= x < 16 -> 0 <= y < 16 -> hex_digit x = hex_digit y -> x = y).
  { intros x y Hx Hy J. apply (f_equal digit_value) in J. now rewrite !hex_digit_value in J. }
  assert (N : forall x, 0 <= x < 16 -> hex_digit x <> 32).
  { intros x Hx J. pose proof (hex_digit_is_hex x Hx) as F. unfold is_hex in F. lia. }
  destruct (b <? 16) eqn:E1, (b' <? 16) eqn:E2; injection E.
  - intros X. apply Q in X; lia.
  - intros X Y. exfalso. apply (N (b' / 16)); [dm|congruence].
  - intros X Y. exfalso. apply (N (b / 16)); [dm|congruence].
  - intros X Y. apply Q in X; [|dm|dm]. apply Q in Y; [|dm|dm]. dm.
Qed.
Lemma hex2_length b : List.length (hex2 b) = 2%nat.
Proof. unfold hex2. destruct (b <? 16); reflexivity. Qed.
Definition row (b : Z) : list Z := [32] ++ hex2 b ++ [32].
Lemma row_eq b b' r r' : is_byte b -> is_byte b' -> row b ++ r = row b' ++ r' -> b = b' /\ r = r'.
Proof.
  unfold is_byte, row. intros H H' E. rewrite <- !app_assoc in E. cbn [app] in E. injection E as E.
  assert (L : hex2 b = hex2 b' /\ 32 :: r = 32 :: r').
  { pose proof (hex2_length b) as L1. pose proof (hex2_length b') as L2.
    destruct (hex2 b) as [|x [|y [|]]]; try discriminate. destruct (hex2 b') as [|x' [|y' [|]]]; try discriminate.
    cbn in E. injection E as -> -> ->. split; reflexivity. }
  destruct L as [L1 L2]. injection L2 as ->. split; [now apply hex2_injective|reflexivity].
Qed.
Lemma rows_injective l : are_bytes l -> forall l', are_bytes l' -> flat_map row l = flat_map row l' -> l = l'.
Proof.
  induction 1 as [|b l Hb Hl IH]; intros l' H' E; destruct H' as [|b' l' Hb' Hl']; auto; cbn [flat_map] in E; try discriminate.
  apply row_eq in E as [-> E]; auto. f_equal. now apply IH.
Qed.
Lemma rows_length l : List.length (flat_map row l) = (4 * List.length l)%nat.
Proof. induction l as [|b l IH]; [reflexivity|]. cbn [flat_map]. rewrite app_length, IH. unfold row. rewrite !app_length, hex2_length. cbn. lia. Qed.
Lemma rows_ascii l : are_bytes l -> Forall (fun c => c = 32 \/ is_hex c) (flat_map row l).
Proof.
  induction 1 as [|b l Hb Hl IH]; cbn [flat_map]; [constructor|]. unfold is_byte in Hb. apply Forall_app. split; [|exact IH].
  unfold row, hex2. destruct (b <? 16) eqn:E; cbn [app];
    repeat (apply Forall_cons; [try (left; reflexivity); right; apply hex_digit_is_hex; dm|]); apply Forall_nil.
Qed.
Lemma rows_text l : are_bytes l -> is_text (flat_map row l).
Proof.
  intros H. exists (flat_map row l). assert (A : Forall (fun c => 0 <= c < 128) (flat_map row l)).
  { eapply Forall_impl; [|apply rows_ascii, H]. unfold is_hex. intros; lia. }
  destruct (ascii_text _ A) as [A1 A2]. split; [exact A1|now rewrite A2].
Qed.

(** Plain characters are quoted as they are. *)
Lemma quoted_plain u l : (forall c, 32 <= c <= 126 -> u_shown u c = true) -> Forall plain l -> str_debug u l = dq ++ l ++ dq.
Proof.
  intros Hu Hl. unfold str_debug. rewrite chars_ascii.
  2:{ eapply Forall_impl; [|exact Hl]. unfold plain. intros; lia. }
  unfold dq. do 2 f_equal.
  induction Hl as [|c l Hc Hl IH]; [reflexivity|]. cbn [flat_map]. rewrite IH. unfold escape, plain in *.
  replace (c =? 0) with false by lia. replace (c =? 9) with false by lia. replace (c =? 13) with false by lia. replace (c =? 10) with false by lia.
  replace (c =? 34) with false by lia. replace (c =? 92) with false by lia. cbn [andb]. rewrite Hu by lia.
  unfold push_char. replace (c <? 128) with true by lia. reflexivity.
Qed.

(** ** Signatures *)
Lemma debug_value_cases s : is_uint 4 s ->
  (is_text (sig_to_bytes s) /\ sig_debug_value s = sig_to_bytes s) \/
  (~ is_text (sig_to_bytes s) /\ sig_debug_value s = flat_map row (sig_to_bytes s)).
Proof.
  intros _. pose proof (sig_bytes_are_bytes s) as HB. unfold sig_debug_value. fold (sig_to_bytes s).
  destruct (utf8_ok (sig_to_bytes s)) eqn:E; [left|right]; split; auto.
  - now apply utf8_ok_iff.
  - intros H. apply utf8_ok_iff in H; [congruence|exact HB].
Qed.
Lemma debug_value_text s : is_uint 4 s -> is_text (sig_debug_value s).
Proof.
  intros Hs. destruct (debug_value_cases s Hs) as [[H ->]|[H ->]]; [exact H|]. apply rows_text, sig_bytes_are_bytes.
Qed.
Lemma debug_value_injective a b : is_uint 4 a -> is_uint 4 b -> sig_debug_value a = sig_debug_value b -> a = b.
Proof.
  intros Ha Hb E.
  assert (K : sig_to_bytes a = sig_to_bytes b -> a = b).
  { intros H. apply sig_eq_bytes in H; auto. unfold sig_eqb in H. lia. }
  assert (La : List.length (sig_to_bytes a) = 4%nat) by apply be_bytes_length.
  assert (Lb : List.length (sig_to_bytes b) = 4%nat) by apply be_bytes_length.
  destruct (debug_value_cases a Ha) as [[H1 E1]|[H1 E1]], (debug_value_cases b Hb) as [[H2 E2]|[H2 E2]]; rewrite E1, E2 in E.
  - auto.
  - apply (f_equal (@List.length Z)) in E. rewrite rows_length in E. lia.
  - apply (f_equal (@List.length Z)) in E. rewrite rows_length in E. lia.
  - apply K. apply rows_injective; auto using sig_bytes_are_bytes.
Qed.

Lemma sig_debug_injective u a b : is_uint 4 a -> is_uint 4 b ->
  (sig_debug u a = sig_debug u b -> a = b) /\ (sig_debug_pretty u a = sig_debug_pretty u b -> a = b).
Proof.
  intros Ha Hb. split; intros E; apply debug_value_injective; auto.
  - unfold sig_debug, struct_debug in E. do 2 apply app_inv_head in E. apply str_debug_injective in E; [tauto| |]; now apply debug_value_text.
  - unfold sig_debug_pretty, struct_debug_pretty in E. do 4 apply app_inv_head in E. apply str_debug_injective in E; [tauto| |]; now apply debug_value_text.
Qed.

Lemma line_breaks_app l r : line_breaks (l ++ r) = (line_breaks l + line_breaks r)%nat.
Proof. apply count_occ_app. Qed.
Lemma sig_debug_lines u s : is_uint 4 s -> line_breaks (sig_debug u s) = 0%nat /\ line_breaks (sig_debug_pretty u s) = 2%nat.
Proof.
  intros Hs. pose proof (no_break_quoted u _ (debug_value_text s Hs)) as N.
  unfold sig_debug, sig_debug_pretty, struct_debug, struct_debug_pretty. rewrite !line_breaks_app, N. split; reflexivity.
Qed.

Lemma sig_debug_plain u s : (forall c, 32 <= c <= 126 -> u_shown u c = true) -> is_uint 4 s -> Forall plain (sig_to_bytes s) ->
  sig_debug u s = text "Signature { value: " ++ (dq ++ sig_to_bytes s ++ dq) ++ text " }" /\
  sig_debug_pretty u s = text "Signature {" ++ [10] ++ text "    value: " ++ (dq ++ sig_to_bytes s ++ dq) ++ text "," ++ [10] ++ text "}".
Proof.
  intros Hu Hs Hp. unfold sig_debug, struct_debug, sig_debug_pretty, struct_debug_pretty.
  assert (T : is_text (sig_to_bytes s)).
  { exists (sig_to_bytes s). assert (A : Forall (fun c => 0 <= c < 128) (sig_to_bytes s)).
    { eapply Forall_impl; [|exact Hp]. unfold plain. intros; lia. }
    destruct (ascii_text _ A) as [A1 A2]. split; [exact A1|now rewrite A2]. }
  destruct (debug_value_cases s Hs) as [[H ->]|[H _]]; [|contradiction].
  rewrite quoted_plain by assumption. split; reflexivity.
Qed.
Lemma listing_plain l : are_bytes l -> Forall plain (flat_map row l).
Proof. intros H. eapply Forall_impl; [|apply rows_ascii, H]. unfold is_hex, plain. intros; lia. Qed.
Lemma sig_debug_listing u s : (forall c, 32 <= c <= 126 -> u_shown u c = true) -> is_uint 4 s -> ~ is_text (sig_to_bytes s) ->
  sig_debug u s = text "Signature { value: " ++ (dq ++ listing (sig_to_bytes s) ++ dq) ++ text " }" /\
  sig_debug_pretty u s = text "Signature {" ++ [10] ++ text "    value: " ++ (dq ++ listing (sig_to_bytes s) ++ dq) ++ text "," ++ [10] ++ text "}".
Proof.
  intros Hu Hs Hn. unfold sig_debug, struct_debug, sig_debug_pretty, struct_debug_pretty.
  destruct (debug_value_cases s Hs) as [[H _]|[H ->]]; [contradiction|].
  rewrite quoted_plain by (try assumption; apply listing_plain, sig_bytes_are_bytes).
  unfold row. rewrite listing_spec by apply sig_bytes_are_bytes. split; reflexivity.
Qed.

(** The complaint about an unknown plug-in type names it. *)
Lemma type_complaint_injective u w a b : (forall l, is_text l -> w_str_debug w l = str_debug u l) ->
  is_uint 4 a -> is_uint 4 b -> msg_type w a = msg_type w b -> a = b.
Proof.
  intros Hw Ha Hb E. unfold msg_type in E. rewrite !Hw in E by now apply debug_value_text.
  apply app_inv_head in E. apply str_debug_injective in E; [|now apply debug_value_text..].
  apply debug_value_injective; tauto.
Qed.

(** ** Profile identifiers *)
Lemma slices n m (p : list Z) : List.length p = (n * m)%nat -> flat_map (fun i => firstn n (skipn (n * i) p)) (seq 0 m) = p.
Proof.
  revert p. induction m as [|m IH]; intros p L.
  - rewrite Nat.mul_0_r in L. destruct p; [reflexivity|discriminate].
  - cbn [seq flat_map]. rewrite Nat.mul_0_r. cbn [skipn]. rewrite <- seq_shift. rewrite flat_map_concat_map, map_map.
    transitivity (firstn n p ++ skipn n p); [|apply firstn_skipn]. f_equal. rewrite <- (IH (skipn n p)).
    2:{ rewrite skipn_length, L. lia. }
    rewrite flat_map_concat_map. f_equal. apply map_ext. intros i. f_equal.
    rewrite P_List.skipn_add. f_equal. lia.
Qed.
Lemma are_bytes_sub n k l : are_bytes l -> are_bytes (firstn n (skipn k l)).
Proof.
  unfold are_bytes. rewrite !Forall_forall. intros H b Hb. apply H.
  rewrite <- (firstn_skipn k l). apply in_or_app. right. rewrite <- (firstn_skipn n (skipn k l)). apply in_or_app. now left.
Qed.
Lemma ids_back e n m p : are_bytes p -> List.length p = (n * m)%nat ->
  flat_map (ne_bytes e n) (map (fun i => ne_val e (firstn n (skipn (n * i) p))) (seq 0 m)) = p.
Proof.
  intros HB L. rewrite flat_map_concat_map, map_map. transitivity (flat_map (fun i => firstn n (skipn (n * i) p)) (seq 0 m)); [|apply slices, L].
  rewrite flat_map_concat_map. f_equal.
  apply map_ext_in. intros i Hi. apply in_seq in Hi.
  assert (Li : List.length (firstn n (skipn (n * i) p)) = n).
  { rewrite firstn_length, skipn_length, L. apply Nat.min_l. assert (n * i + n <= n * m)%nat by (rewrite <- Nat.mul_succ_r; apply Nat.mul_le_mono_l; lia). lia. }
  rewrite <- Li at 1. apply ne_bytes_val, are_bytes_sub, HB.
Qed.
Lemma flat_len e n l : List.length (flat_map (ne_bytes e n) l) = (n * List.length l)%nat.
Proof. induction l as [|v l IH]; [cbn; lia|]. cbn [flat_map List.length]. rewrite app_length, ne_bytes_length, IH. lia. Qed.
Lemma flat_bytes e n l : are_bytes (flat_map (ne_bytes e n) l).
Proof. induction l as [|v l IH]; [constructor|]. cbn [flat_map]. apply Forall_app. split; [apply ne_bytes_bytes|exact IH]. Qed.
Lemma flat_slice e n l : forall i, (i < List.length l)%nat ->
  firstn n (skipn (n * i) (flat_map (ne_bytes e n) l)) = ne_bytes e n (nth i l 0).
Proof.
  induction l as [|v l IH]; intros i Hi; [cbn in Hi; lia|]. cbn [flat_map]. destruct i as [|i].
  - rewrite Nat.mul_0_r. cbn [skipn nth]. rewrite firstn_app, ne_bytes_length, Nat.sub_diag, firstn_O, app_nil_r.
    rewrite <- (ne_bytes_length e n v) at 1. apply firstn_all.
  - rewrite skipn_app, ne_bytes_length. rewrite skipn_all2 by (rewrite ne_bytes_length; lia). cbn [app nth].
    replace (n * S i - n)%nat with (n * i)%nat by lia. apply IH. cbn in Hi. lia.
Qed.
Lemma ids_there e n l : Forall (is_uint n) l ->
  map (fun i => ne_val e (firstn n (skipn (n * i) (flat_map (ne_bytes e n) l)))) (seq 0 (List.length l)) = l.
Proof.
  intros H. rewrite (map_ext_in _ (fun i => nth i l 0)).
  - clear H. induction l as [|v l IH]; [reflexivity|]. cbn [List.length seq map nth]. f_equal. rewrite <- seq_shift, map_map. exact IH.
  - intros i Hi. apply in_seq in Hi. rewrite flat_slice by lia. rewrite ne_val_bytes. apply uint_mod.
    rewrite Forall_forall in H. apply H, nth_In. lia.
Qed.

Lemma id16_view e p : are_bytes p -> List.length p = 16%nat -> of_id16 e (id16 e p) = p /\ Forall (is_uint 2) (id16 e p) /\ List.length (id16 e p) = 8%nat.
Proof.
  intros HB L. split; [apply (ids_back e 2 8 p HB L)|]. split; [|reflexivity].
  apply Forall_forall. intros v Hv. apply in_map_iff in Hv as (i & <- & Hi). apply in_seq in Hi.
  assert (Li : List.length (firstn 2 (skipn (2 * i) p)) = 2%nat) by (rewrite firstn_length, skipn_length, L; lia).
  rewrite <- Li at 1. apply ne_val_bound, are_bytes_sub, HB.
Qed.
Lemma id32_view e p : are_bytes p -> List.length p = 16%nat -> of_id32 e (id32 e p) = p /\ Forall (is_uint 4) (id32 e p) /\ List.length (id32 e p) = 4%nat.
Proof.
  intros HB L. split; [apply (ids_back e 4 4 p HB L)|]. split; [|reflexivity].
  apply Forall_forall. intros v Hv. apply in_map_iff in Hv as (i & <- & Hi). apply in_seq in Hi.
  assert (Li : List.length (firstn 4 (skipn (4 * i) p)) = 4%nat) by (rewrite firstn_length, skipn_length, L; lia).
  rewrite <- Li at 1. apply ne_val_bound, are_bytes_sub, HB.
Qed.
Lemma id16_there e l : List.length l = 8%nat -> Forall (is_uint 2) l ->
  id16 e (of_id16 e l) = l /\ are_bytes (id8 (of_id16 e l)) /\ List.length (id8 (of_id16 e l)) = 16%nat.
Proof.
  intros L H. split; [|split; [apply flat_bytes|unfold id8, of_id16; rewrite flat_len, L; reflexivity]].
  pose proof (ids_there e 2 l H) as E. rewrite L in E. exact E.
Qed.
Lemma id32_there e l : List.length l = 4%nat -> Forall (is_uint 4) l ->
  id32 e (of_id32 e l) = l /\ are_bytes (id8 (of_id32 e l)) /\ List.length (id8 (of_id32 e l)) = 16%nat.
Proof.
  intros L H. split; [|split; [apply flat_bytes|unfold id8, of_id32; rewrite flat_len, L; reflexivity]].
  pose proof (ids_there e 4 l H) as E. rewrite L in E. exact E.
Qed.

Lemma profile_id_debug_text u p : (forall c, 32 <= c <= 126 -> u_shown u c = true) -> are_bytes p ->
  profile_id_debug u p = text "ProfileID { value: " ++ (dq ++ listing p ++ dq) ++ text " }" /\
  profile_id_debug_pretty u p = text "ProfileID {" ++ [10] ++ text "    value: " ++ (dq ++ listing p ++ dq) ++ text "," ++ [10] ++ text "}".
Proof.
  intros Hu HB. unfold profile_id_debug, profile_id_debug_pretty, struct_debug, struct_debug_pretty, profile_id_value, id8.
  change (fun b : Z => [32] ++ hex2 b ++ [32]) with row.
  rewrite quoted_plain by (try assumption; apply listing_plain, HB). unfold row. rewrite listing_spec by exact HB. split; reflexivity.
Qed.
Lemma value_text p : are_bytes p -> is_text (profile_id_value p).
Proof. exact (rows_text p). Qed.
Lemma profile_id_debug_injective u p q : are_bytes p -> are_bytes q ->
  (profile_id_debug u p = profile_id_debug u q -> p = q) /\ (profile_id_debug_pretty u p = profile_id_debug_pretty u q -> p = q).
Proof.
  intros Hp Hq.
  assert (K : profile_id_value p = profile_id_value q -> p = q) by (exact (rows_injective p Hp q Hq)).
  split; intros E; apply K.
  - unfold profile_id_debug, struct_debug in E. do 2 apply app_inv_head in E. apply str_debug_injective in E; [tauto| |]; now apply value_text.
  - unfold profile_id_debug_pretty, struct_debug_pretty in E. do 4 apply app_inv_head in E. apply str_debug_injective in E; [tauto| |]; now apply value_text.
Qed.
