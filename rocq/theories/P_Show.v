(** Debugging texts can be read back. *)
From Coq Require Import String.
From Verif Require Import M_Base M_Signature M_Context M_Debug M_Show S_Bytes S_Text S_Decimal S_Show P_Decimal P_Debug.
Local Open Scope list_scope.
Local Open Scope Z_scope.

Section shown_ind.
  Context (P : shown -> Prop).
  Context (Pn : forall n, P (SNum n)) (Ps : forall l, P (SStr l)) (Pm : forall n, P (SName n)) (Pa : forall l, P (SAtom l)).
  Context (Pt : forall n l, Forall P l -> P (STuple n l)) (Pl : forall l, Forall P l -> P (SList l)).
  Context (Pr : forall n l, Forall (fun f => P (snd f)) l -> P (SStruct n l)).
  Fixpoint shown_ind' (v : shown) : P v :=
    let go := fix go (l : list shown) : Forall P l :=
      match l with [] => Forall_nil P | v :: r => Forall_cons v (shown_ind' v) (go r) end in
    let gof := fix gof (l : list (string * shown)) : Forall (fun f => P (snd f)) l :=
      match l with
      | [] => Forall_nil (fun f => P (snd f))
      | f :: r => Forall_cons f (match f return P (snd f) with (_, v) => shown_ind' v end) (gof r)
      end in
    match v with
    | SNum n => Pn n | SStr l => Ps l | SName n => Pm n | SAtom l => Pa l
    | STuple n l => Pt n l (go l) | SList l => Pl l (go l) | SStruct n l => Pr n l (gof l)
    end.
End shown_ind.

Lemma forall_fold {A} (P : A -> Prop) l : fold_right (fun v Q => P v /\ Q) True l <-> Forall P l.
Proof. induction l; cbn; [now split; constructor|]. rewrite IHl. split; [intros (? & ?); now constructor|intros H; now inversion H]. Qed.

Lemma span (P : Z -> Prop) l l' s s' : Forall P l -> Forall P l' ->
  (forall c r, s = c :: r -> ~ P c) -> (forall c r, s' = c :: r -> ~ P c) -> l ++ s = l' ++ s' -> l = l' /\ s = s'.
Proof.
  intros F. revert l'. induction F as [|c l C F IH]; intros [|c' l'] F' S S' E; cbn in E.
  - now split.
  - inversion F'; subst. now destruct (S _ _ eq_refl).
  - inversion F'; subst. now destruct (S' _ _ eq_refl).
  - inversion F'; subst. injection E as <- E. destruct (IH l') as (-> & ->); auto.
Qed.

(** What follows is no digit and no part of an identifier. *)
Lemma ends_char s c r : ends s -> s = c :: r -> c = 44 \/ c = 41 \/ c = 93 \/ c = 32.
Proof. intros [->|[(c' & r' & -> & I)|(r' & ->)]] E; [discriminate| |]; injection E as E _; [cbn in I|]; lia. Qed.
Lemma ends_not_ident s c r : ends s -> s = c :: r -> ~ ident_char c.
Proof. intros E S. pose proof (ends_char _ _ _ E S). unfold ident_char. lia. Qed.
Lemma ends_not_digit s c r : ends s -> s = c :: r -> ~ 48 <= c <= 57.
Proof. intros E S. pose proof (ends_char _ _ _ E S). lia. Qed.
Lemma ends_comma s : ends (44 :: s).
Proof. right; left. exists 44, s. split; [reflexivity|cbn; tauto]. Qed.
Lemma ends_paren s : ends (41 :: s).
Proof. right; left. exists 41, s. split; [reflexivity|cbn; tauto]. Qed.
Lemma ends_bracket s : ends (93 :: s).
Proof. right; left. exists 93, s. split; [reflexivity|cbn; tauto]. Qed.
Lemma ends_brace s : ends (32 :: 125 :: s).
Proof. right; right. now exists s. Qed.

Lemma decimal_digits n : 0 <= n -> Forall (fun c => 48 <= c <= 57) (decimal n) /\ decimal n <> [].
Proof. intros N. destruct (decimal_written n N) as (A & B & _). now split. Qed.
Lemma decimal_injective n n' : 0 <= n -> 0 <= n' -> decimal n = decimal n' -> n = n'.
Proof.
  intros N N' E. destruct (decimal_written n N) as (_ & _ & _ & <-). destruct (decimal_written n' N') as (_ & _ & _ & <-). now rewrite E.
Qed.
Lemma decimal_read n n' s s' : 0 <= n -> 0 <= n' -> ends s -> ends s' -> decimal n ++ s = decimal n' ++ s' -> n = n' /\ s = s'.
Proof.
  intros N N' S S' E. destruct (span (fun c => 48 <= c <= 57) (decimal n) (decimal n') s s') as (A & B); try assumption; try now apply decimal_digits.
  - intros c r. now apply ends_not_digit.
  - intros c r. now apply ends_not_digit.
  - split; [now apply decimal_injective|exact B].
Qed.
Lemma decimal_head n : 0 <= n -> exists c r, decimal n = c :: r /\ 48 <= c <= 57.
Proof. intros N. destruct (decimal_digits n N) as (F & NE). destruct (decimal n) as [|c r]; [easy|]. exists c, r. split; [reflexivity|now inversion F]. Qed.
Lemma num_read n n' s s' : ends s -> ends s' -> show_num n ++ s = show_num n' ++ s' -> n = n' /\ s = s'.
Proof.
  intros S S'. unfold show_num. destruct (Z.ltb_spec n 0) as [L|L], (Z.ltb_spec n' 0) as [L'|L']; cbn [app]; intros E.
  - injection E as E. destruct (decimal_read (- n) (- n') s s') as (A & B); try assumption; try lia. split; [lia|exact B].
  - destruct (decimal_head n' L') as (c & r & H & R). rewrite H in E. injection E as <- _. lia.
  - destruct (decimal_head n L) as (c & r & H & R). rewrite H in E. injection E as -> _. lia.
  - now apply decimal_read.
Qed.

(** The first character tells the kind of value. *)
Definition kind (v : shown) : Z := match v with SNum _ | SAtom _ => 0 | SStr _ => 1 | SList _ => 3 | _ => 2 end.
Definition char_kind (c : Z) : Z := if (c =? 45) || (c =? 43) || (48 <=? c) && (c <=? 57) then 0 else if c =? 34 then 1 else if c =? 91 then 3 else 2.
Definition starts (v : shown) (l : list Z) : Prop := exists c r, l = c :: r /\ char_kind c = kind v /\ c <> 41 /\ c <> 93 /\ c <> 32.
Lemma kind_name c : ident_char c -> ~ 48 <= c <= 57 -> char_kind c = 2.
Proof.
  unfold ident_char, char_kind. intros C N. replace ((c =? 45) || (c =? 43) || (48 <=? c) && (c <=? 57)) with false by lia.
  replace (c =? 34) with false by lia. now replace (c =? 91) with false by lia.
Qed.
Lemma kind_digit c : 48 <= c <= 57 -> char_kind c = 0.
Proof. unfold char_kind. intros C. now replace ((c =? 45) || (c =? 43) || (48 <=? c) && (c <=? 57)) with true by lia. Qed.
Lemma ident_starts n l : ident n -> exists c r, text n ++ l = c :: r /\ char_kind c = 2 /\ c <> 41 /\ c <> 93 /\ c <> 32.
Proof.
  intros (F & c & r & E & N). exists c, (r ++ l). rewrite E in *. inversion F as [|? ? C _]; subst. split; [reflexivity|]. split; [now apply kind_name|].
  unfold ident_char in C. lia.
Qed.
Lemma num_starts n : starts (SNum n) (show_num n).
Proof.
  unfold show_num. destruct (Z.ltb_spec n 0) as [L|L].
  - exists 45, (decimal (- n)). repeat split; lia.
  - destruct (decimal_head n L) as (c & r & -> & R). exists c, r. split; [reflexivity|]. split; [now apply kind_digit|lia].
Qed.
Lemma str_starts u l : starts (SStr l) (str_debug u l).
Proof. exists 34, (flat_map (escape u) (chars l) ++ [34]). repeat split; lia. Qed.
Lemma atom_starts l : atom l -> starts (SAtom l) l.
Proof.
  intros (_ & c & r & -> & C & _). exists c, r. split; [reflexivity|]. unfold char_kind. cbn [kind text] in *. cbn in C.
  assert (E : (c =? 45) || (c =? 43) || (48 <=? c) && (c <=? 57) = true) by lia. rewrite E. lia.
Qed.
Lemma compact_starts u v : well_formed v -> starts v (compact u v).
Proof.
  destruct v as [n|l|n|l|n [|x l]|l|n [|x l]]; intros W.
  - apply num_starts.
  - apply str_starts.
  - destruct (ident_starts n [] W) as (c & r & E & K). rewrite app_nil_r in E. exists c, r. now split.
  - now apply atom_starts.
  - now destruct W as (_ & N & _).
  - destruct W as (I & _). exact (ident_starts n _ I).
  - cbn [compact]. exists 91, (join (map (compact u) l) ++ text "]"). repeat split; lia.
  - now destruct W as (_ & N & _).
  - destruct W as (I & _). exact (ident_starts n _ I).
Qed.
Lemma pretty_starts u v : well_formed v -> starts v (pretty u v).
Proof.
  destruct v as [n|l|n|l|n [|x l]|[|x l]|n [|x l]]; intros W.
  - apply num_starts.
  - apply str_starts.
  - destruct (ident_starts n [] W) as (c & r & E & K). rewrite app_nil_r in E. exists c, r. now split.
  - now apply atom_starts.
  - now destruct W as (_ & N & _).
  - destruct W as (I & _). exact (ident_starts n _ I).
  - exists 91, (text "]"). repeat split; lia.
  - eexists 91, _. split; [reflexivity|]. repeat split; lia.
  - now destruct W as (_ & N & _).
  - destruct W as (I & _). exact (ident_starts n _ I).
Qed.
Lemma same_kind v v' l l' s s' : starts v l -> starts v' l' -> l ++ s = l' ++ s' -> kind v = kind v'.
Proof. intros (c & r & -> & <- & _) (c' & r' & -> & <- & _) [= -> _]. reflexivity. Qed.

(** Atoms and numbers end where their characters end, and differ. *)
Lemma ends_not_atom s c r : ends s -> s = c :: r -> ~ atom_char c.
Proof. intros E S. pose proof (ends_char _ _ _ E S). intros [A|A]; [unfold ident_char in A; lia|cbn in A; lia]. Qed.
Lemma num_chars n : Forall atom_char (show_num n) /\ exists c r, show_num n = c :: r /\ Forall (fun d => 48 <= d <= 57) r.
Proof.
  assert (D : forall k, 0 <= k -> Forall atom_char (decimal k)).
  { intros k K. eapply Forall_impl; [|apply (proj1 (decimal_digits k K))]. intros c C. cbv beta in C. left. unfold ident_char. lia. }
  unfold show_num. destruct (Z.ltb_spec n 0) as [L|L].
  - split; [|exists 45, (decimal (- n)); split; [reflexivity|apply decimal_digits; lia]]. constructor; [right; cbn; lia|apply D; lia].
  - split; [now apply D|]. destruct (decimal_head n L) as (c & r & H & _). exists c, r. split; [exact H|]. destruct (decimal_digits n L) as (F & _). rewrite H in F. now inversion F.
Qed.
Lemma atom_not_num l n s s' : atom l -> ends s -> ends s' -> l ++ s <> show_num n ++ s'.
Proof.
  intros (F & c & r & -> & _ & N) S S' E. destruct (num_chars n) as (F' & d & t & H & D).
  destruct (span atom_char (c :: r) (show_num n) s s' F F') as (A & _); [intros x y; now apply ends_not_atom..|exact E|].
  rewrite H in A. injection A as _ ->. now apply N.
Qed.
Lemma atom_read l l' s s' : atom l -> atom l' -> ends s -> ends s' -> l ++ s = l' ++ s' -> l = l' /\ s = s'.
Proof. intros (F & _) (F' & _) S S' E. apply (span atom_char); try assumption; intros x y; now apply ends_not_atom. Qed.

(** Names end where the identifier ends. *)
Lemma name_read n n' s s' : ident n -> ident n' -> text n ++ s = text n' ++ s' ->
  (forall c r, s = c :: r -> ~ ident_char c) -> (forall c r, s' = c :: r -> ~ ident_char c) -> n = n' /\ s = s'.
Proof.
  intros (F & _) (F' & _) E S S'. destruct (span ident_char (text n) (text n') s s' F F' S S' E) as (A & B). split; [|exact B].
  clear -A. revert n' A. induction n as [|a n IH]; intros [|a' n'] A; cbn in A; try discriminate; [reflexivity|]. injection A as C A. f_equal; [|now apply IH].
  assert (Ascii.N_of_ascii a = Ascii.N_of_ascii a') by lia. rewrite <- (Ascii.ascii_N_embedding a), <- (Ascii.ascii_N_embedding a'). now f_equal.
Qed.

Section items.
  Context {A : Type} (r : A -> list Z) (ok : A -> Prop).
  Definition reads (x : A) : Prop := forall x' s s', ok x' -> ends s -> ends s' -> r x ++ s = r x' ++ s' -> x = x' /\ s = s'.

  (** [{:?}]: separated by commas, then a closing bracket. *)
  Lemma join_cons x l : join (map r (x :: l)) = r x ++ concat (map (fun x => text ", " ++ r x) l).
  Proof.
    revert x. induction l as [|y l IH]; intros x; [cbn; now rewrite app_nil_r|]. cbn [map join concat] in *. rewrite IH. now rewrite <- !app_assoc.
  Qed.
  Lemma more_read c k l : (forall s, ends (c :: k ++ s)) -> c <> 44 -> Forall reads l -> forall l' s s', Forall ok l' ->
    concat (map (fun x => text ", " ++ r x) l) ++ (c :: k) ++ s = concat (map (fun x => text ", " ++ r x) l') ++ (c :: k) ++ s' -> l = l' /\ s = s'.
  Proof.
    intros K N. assert (EE : forall l s, ends (concat (map (fun x => text ", " ++ r x) l) ++ (c :: k) ++ s)).
    { intros [|x m] s; [apply K|]. apply ends_comma. }
    induction 1 as [|x l X F IH]; intros [|x' l'] s s' O E; cbn [map concat app] in E.
    - injection E as E. apply app_inv_head in E. now split.
    - change (text ", " ++ r x') with (44 :: 32 :: r x') in E. injection E as -> _. now destruct N.
    - change (text ", " ++ r x) with (44 :: 32 :: r x) in E. injection E as <- _. now destruct N.
    - inversion O as [|? ? O1 O2]; subst. rewrite <- !app_assoc in E. apply app_inv_head in E. destruct (X x' _ _ O1 (EE l s) (EE l' s') E) as (<- & E').
      destruct (IH _ _ _ O2 E') as (<- & <-). now split.
  Qed.
  Lemma join_read c k l l' s s' : (forall s, ends (c :: k ++ s)) -> c <> 44 -> (forall x, ok x -> exists d t, r x = d :: t /\ d <> c) ->
    Forall reads l -> Forall ok l -> Forall ok l' ->
    join (map r l) ++ (c :: k) ++ s = join (map r l') ++ (c :: k) ++ s' -> l = l' /\ s = s'.
  Proof.
    intros K N D R O O' E. assert (EE : forall l s, ends (concat (map (fun x => text ", " ++ r x) l) ++ (c :: k) ++ s)).
    { intros [|x m] t; [apply K|]. apply ends_comma. }
    destruct l as [|x l], l' as [|x' l'].
    - cbn in E. injection E as E. apply app_inv_head in E. now split.
    - rewrite join_cons in E. inversion O' as [|? ? O1 _]; subst. destruct (D x' O1) as (d & t & H & ND). rewrite H in E. cbn in E. injection E as <- _. now destruct ND.
    - rewrite join_cons in E. inversion O as [|? ? O1 _]; subst. destruct (D x O1) as (d & t & H & ND). rewrite H in E. cbn in E. injection E as -> _. now destruct ND.
    - rewrite !join_cons, <- !app_assoc in E. inversion O' as [|? ? O1 O2]; inversion R as [|? ? R1 R2]; subst.
      destruct (R1 x' _ _ O1 (EE l s) (EE l' s') E) as (<- & E'). destruct (more_read c k l K N R2 l' s s' O2 E') as (<- & <-). now split.
  Qed.

  (** [{:#?}]: one per line, indented. *)
  Lemma lines_read l : Forall reads l -> forall l', Forall ok l' ->
    (forall x, ok x -> r x <> []) -> Forall (fun x => r x <> []) l ->
    concat (map (fun x => r x ++ text "," ++ [10]) l) = concat (map (fun x => r x ++ text "," ++ [10]) l') -> l = l'.
  Proof.
    induction 1 as [|x l X F IH]; intros [|x' l'] O NE N E; cbn [map concat] in E.
    - reflexivity.
    - inversion O as [|? ? O1 _]; subst. specialize (NE _ O1). destruct (r x'); [easy|discriminate].
    - inversion N as [|? ? N1 _]; subst. destruct (r x); [easy|discriminate].
    - inversion O as [|? ? O1 O2]; inversion N as [|? ? N1 N2]; subst. rewrite <- !app_assoc in E.
      destruct (X x' _ _ O1 (ends_comma _) (ends_comma _) E) as (<- & E'). injection E' as E'. now rewrite (IH _ O2 NE N2 E').
  Qed.
End items.

Fixpoint line_start (b : bool) (l : list Z) : bool := match l with [] => b | c :: r => line_start (c =? 10) r end.
Lemma pad_app b x y : pad_lines b (x ++ y) = pad_lines b x ++ pad_lines (line_start b x) y.
Proof. revert b. induction x as [|c x IH]; intros b; cbn [app pad_lines line_start]; [reflexivity|]. now rewrite IH, <- app_assoc. Qed.
Lemma start_app b x y : line_start b (x ++ y) = line_start (line_start b x) y.
Proof. revert b. induction x as [|c x IH]; intros b; cbn; [reflexivity|apply IH]. Qed.
Lemma entries {A} (r : A -> list Z) l : concat (map (fun x => entry (r x)) l) = pad_lines true (concat (map (fun x => r x ++ text "," ++ [10]) l)) /\
  line_start true (concat (map (fun x => r x ++ text "," ++ [10]) l)) = true.
Proof.
  induction l as [|x l (IH & IS)]; [now split|]. cbn [map concat]. assert (L : line_start true (r x ++ text "," ++ [10]) = true) by (rewrite start_app; reflexivity).
  rewrite pad_app, L, IH. split; [reflexivity|]. now rewrite start_app, L.
Qed.
Lemma pad_read c x : c <> 32 -> forall b x' s s', line_start b x = true -> line_start b x' = true ->
  pad_lines b x ++ c :: s = pad_lines b x' ++ c :: s' -> x = x' /\ s = s'.
Proof.
  intros N. induction x as [|a x IH]; intros b [|a' x'] s s' L L' E; cbn [pad_lines line_start] in *.
  - injection E as E. now split.
  - subst b. cbn in E. injection E as -> _. now destruct N.
  - subst b. cbn in E. injection E as <- _. now destruct N.
  - rewrite <- !app_assoc in E. apply app_inv_head in E. injection E as <- E. destruct (IH _ _ _ _ L L' E) as (<- & <-). now split.
Qed.
Lemma entries_read {A} (r : A -> list Z) (ok : A -> Prop) c l l' s s' : c <> 32 -> Forall (reads r ok) l -> Forall ok l -> Forall ok l' ->
  (forall x, ok x -> r x <> []) -> concat (map (fun x => entry (r x)) l) ++ c :: s = concat (map (fun x => entry (r x)) l') ++ c :: s' -> l = l' /\ s = s'.
Proof.
  intros N R O O' NE E. destruct (entries r l) as (P & L), (entries r l') as (P' & L'). rewrite P, P' in E.
  destruct (pad_read c _ N _ _ _ _ L L' E) as (B & ->). split; [|reflexivity].
  apply (lines_read r ok l R l' O' NE); [|exact B]. eapply Forall_impl; [|exact O]. exact NE.
Qed.

(** ** The two forms *)
Definition field_text (r : shown -> list Z) (f : string * shown) : list Z := text (fst f) ++ text ": " ++ r (snd f).
Definition field_ok (f : string * shown) : Prop := ident (fst f) /\ well_formed (snd f).
Lemma field_reads r f : reads r well_formed (snd f) -> ident (fst f) -> reads (field_text r) field_ok f.
Proof.
  destruct f as (n & v). cbn. intros R I (n' & v') s s' (I' & W) S S' E. unfold field_text in E. cbn in *. rewrite <- !app_assoc in E.
  destruct (name_read n n' _ _ I I' E) as (<- & E').
  - intros c t [= <- _]. unfold ident_char. lia.
  - intros c t [= <- _]. unfold ident_char. lia.
  - injection E' as E'. destruct (R v' s s' W S S' E') as (<- & <-). now split.
Qed.
Lemma field_starts r f : field_ok f -> exists d t, field_text r f = d :: t /\ d <> 32 /\ d <> 41 /\ d <> 93.
Proof. intros (I & _). destruct (ident_starts (fst f) (text ": " ++ r (snd f)) I) as (c & t & E & K & N). exists c, t. split; [exact E|tauto]. Qed.
Lemma fields_ok n l : well_formed (SStruct n l) -> Forall field_ok l.
Proof.
  intros (_ & _ & F). apply (forall_fold (fun f : string * shown => let (name, v) := f in ident name /\ well_formed v)) in F.
  eapply Forall_impl; [|exact F]. now intros (? & ?).
Qed.
Lemma compact_struct u n l : l <> [] -> compact u (SStruct n l) = text n ++ text " { " ++ join (map (field_text (compact u)) l) ++ text " }".
Proof.
  destruct l as [|f l]; [easy|]. intros _.
  rewrite <- (map_ext (fun f : string * shown => let (name, v) := f in text name ++ text ": " ++ compact u v) (field_text (compact u))); [reflexivity|now intros (? & ?)].
Qed.
Lemma pretty_struct u n l : l <> [] -> pretty u (SStruct n l) = text n ++ text " {" ++ [10] ++ concat (map (fun f => entry (field_text (pretty u) f)) l) ++ text "}".
Proof.
  destruct l as [|f l]; [easy|]. intros _.
  rewrite <- (map_ext (fun f : string * shown => let (name, v) := f in entry (text name ++ text ": " ++ pretty u v)) (fun f => entry (field_text (pretty u) f))); [reflexivity|now intros (? & ?)].
Qed.
Lemma compact_tuple u n l : l <> [] -> compact u (STuple n l) = text n ++ text "(" ++ join (map (compact u) l) ++ text ")".
Proof. now destruct l. Qed.
Lemma pretty_tuple u n l : l <> [] -> pretty u (STuple n l) = text n ++ text "(" ++ [10] ++ concat (map (fun v => entry (pretty u v)) l) ++ text ")".
Proof. now destruct l. Qed.

Lemma named_split (r : shown -> list Z) v : kind v = 2 -> well_formed v ->
  (exists n, v = SName n /\ ident n) \/ (exists n l, v = STuple n l /\ ident n /\ l <> [] /\ Forall well_formed l) \/
  (exists n l, v = SStruct n l /\ ident n /\ l <> [] /\ Forall field_ok l).
Proof.
  destruct v as [n|l|n|l|n l|l|n l]; try discriminate; intros _ W.
  - left. now exists n.
  - right; left. destruct W as (I & N & F). exists n, l. apply forall_fold in F. exact (conj eq_refl (conj I (conj N F))).
  - right; right. exists n, l. pose proof (fields_ok _ _ W) as F. destruct W as (I & N & _). exact (conj eq_refl (conj I (conj N F))).
Qed.
Lemma ends_open l : ends (text "(" ++ l) -> False.
Proof. intros E. pose proof (ends_char (text "(" ++ l) 40 l E eq_refl). lia. Qed.
Lemma ends_open_brace l : ends (text " {" ++ l) -> False.
Proof. intros [H|[(c & r & H & C)|(r & H)]]; [discriminate|injection H as H _; cbn in C; lia|discriminate]. Qed.
Lemma not_ident_paren l : forall c r, text "(" ++ l = c :: r -> ~ ident_char c.
Proof. intros c r [= <- _]. unfold ident_char. lia. Qed.
Lemma not_ident_space l : forall c r, 32 :: l = c :: r -> ~ ident_char c.
Proof. intros c r [= <- _]. unfold ident_char. lia. Qed.

Lemma fields_reads r n l : Forall (fun f => reads r well_formed (snd f)) l -> well_formed (SStruct n l) -> Forall (reads (field_text r) field_ok) l.
Proof.
  intros R W. apply fields_ok in W. rewrite Forall_forall in *. intros f I. apply field_reads; [now apply R|now apply W].
Qed.
Lemma wf_reads u l : Forall (fun v => well_formed v -> reads (compact u) well_formed v) l -> Forall well_formed l -> Forall (reads (compact u) well_formed) l.
Proof. intros R W. rewrite Forall_forall in *. intros v I. now apply R; [|apply W]. Qed.
Lemma wf_reads_p u l : Forall (fun v => well_formed v -> reads (pretty u) well_formed v) l -> Forall well_formed l -> Forall (reads (pretty u) well_formed) l.
Proof. intros R W. rewrite Forall_forall in *. intros v I. now apply R; [|apply W]. Qed.
Lemma wf_field_reads r n l : Forall (fun f => well_formed (snd f) -> reads r well_formed (snd f)) l -> well_formed (SStruct n l) -> Forall (reads (field_text r) field_ok) l.
Proof.
  intros R W. apply (fields_reads r n l); [|exact W]. apply fields_ok in W. rewrite Forall_forall in *. intros f I. apply R; [exact I|]. now apply W.
Qed.


Lemma compact_reads u v : well_formed v -> reads (compact u) well_formed v.
Proof.
  induction v as [n|l|n|l|n l IH|l IH|n l IH] using shown_ind'; intros W v' s s' W' S S' E;
    pose proof (same_kind _ _ _ _ _ _ (compact_starts u _ W) (compact_starts u _ W') E) as K.
  - destruct v'; try discriminate; [|symmetry in E; now apply atom_not_num in E]. destruct (num_read _ _ _ _ S S' E) as (<- & <-). now split.
  - destruct v'; try discriminate. destruct (str_debug_injective u _ _ _ _ W W' E) as (<- & <-). now split.
  - destruct (named_split (compact u) v' (eq_sym K) W') as [(n' & -> & I)|[(n' & l & -> & I & N & F)|(n' & l & -> & I & N & F)]].
    + cbn [compact] in E. destruct (name_read n n' _ _ W I E) as (<- & <-); [intros c r; now apply ends_not_ident..|now split].
    + rewrite (compact_tuple u n' l N), <- !app_assoc in E. cbn [compact] in E. destruct (name_read n n' _ _ W I E) as (_ & ->); [intros c r; now apply ends_not_ident|apply not_ident_paren|].
      now apply ends_open in S.
    + rewrite (compact_struct u n' l N), <- !app_assoc in E. cbn [compact] in E. destruct (name_read n n' _ _ W I E) as (_ & ->); [intros c r; now apply ends_not_ident|apply not_ident_space|].
      now apply ends_open_brace in S.
  - destruct v'; try discriminate; [now apply atom_not_num in E|]. destruct (atom_read _ _ _ _ W W' S S' E) as (<- & <-). now split.
  - pose proof W as (I & N & F). apply forall_fold in F. destruct (named_split (compact u) v' (eq_sym K) W') as [(n' & -> & I')|[(n' & l' & -> & I' & N' & F')|(n' & l' & -> & I' & N' & F')]].
    + rewrite (compact_tuple u n l N), <- !app_assoc in E. cbn [compact] in E. destruct (name_read n n' _ _ I I' E) as (_ & <-); [apply not_ident_paren|intros c r; now apply ends_not_ident|].
      now apply ends_open in S'.
    + rewrite (compact_tuple u n l N), (compact_tuple u n' l' N'), <- !app_assoc in E. destruct (name_read n n' _ _ I I' E) as (<- & E'); [apply not_ident_paren..|].
      injection E' as E'. destruct (join_read (compact u) well_formed 41 [] l l' s s') as (<- & <-); auto using ends_paren, wf_reads; [lia|].
      intros x X. destruct (compact_starts u x X) as (d & t & H & _ & D). exists d, t. split; [exact H|tauto].
    + rewrite (compact_tuple u n l N), (compact_struct u n' l' N'), <- !app_assoc in E. destruct (name_read n n' _ _ I I' E) as (<- & E'); [apply not_ident_paren|apply not_ident_space|].
      discriminate E'.
  - destruct v' as [| | | | |l'|]; try discriminate. cbn [well_formed compact] in W, W', E. apply forall_fold in W, W'. rewrite <- !app_assoc in E. injection E as E.
    destruct (join_read (compact u) well_formed 93 [] l l' s s') as (<- & <-); auto using ends_bracket, wf_reads; [lia|].
    intros x X. destruct (compact_starts u x X) as (d & t & H & _ & D). exists d, t. split; [exact H|tauto].
  - pose proof W as (I & N & _). pose proof (fields_ok _ _ W) as F. destruct (named_split (compact u) v' (eq_sym K) W') as [(n' & -> & I')|[(n' & l' & -> & I' & N' & F')|(n' & l' & -> & I' & N' & F')]].
    + rewrite (compact_struct u n l N), <- !app_assoc in E. cbn [compact] in E. destruct (name_read n n' _ _ I I' E) as (_ & <-); [apply not_ident_space|intros c r; now apply ends_not_ident|].
      now apply ends_open_brace in S'.
    + rewrite (compact_struct u n l N), (compact_tuple u n' l' N'), <- !app_assoc in E. destruct (name_read n n' _ _ I I' E) as (<- & E'); [apply not_ident_space|apply not_ident_paren|].
      discriminate E'.
    + rewrite (compact_struct u n l N), (compact_struct u n' l' N'), <- !app_assoc in E. destruct (name_read n n' _ _ I I' E) as (<- & E'); [apply not_ident_space..|].
      injection E' as E'. destruct (join_read (field_text (compact u)) field_ok 32 [125] l l' s s') as (<- & <-); [exact ends_brace|lia| |now apply (wf_field_reads _ n)|assumption|assumption|exact E'|now split].
      intros x X. destruct (field_starts (compact u) x X) as (d & t & H & D). exists d, t. split; [exact H|tauto].
Qed.
Lemma pretty_nonempty u x : well_formed x -> pretty u x <> [].
Proof. intros X. now destruct (pretty_starts u x X) as (d & t & -> & _). Qed.
Lemma field_nonempty r f : field_ok f -> field_text r f <> [].
Proof. intros X. now destruct (field_starts r f X) as (d & t & -> & _). Qed.
Lemma pretty_reads u v : well_formed v -> reads (pretty u) well_formed v.
Proof.
  induction v as [n|l|n|l|n l IH|l IH|n l IH] using shown_ind'; intros W v' s s' W' S S' E;
    pose proof (same_kind _ _ _ _ _ _ (pretty_starts u _ W) (pretty_starts u _ W') E) as K.
  - destruct v'; try discriminate; [|symmetry in E; now apply atom_not_num in E]. destruct (num_read _ _ _ _ S S' E) as (<- & <-). now split.
  - destruct v'; try discriminate. destruct (str_debug_injective u _ _ _ _ W W' E) as (<- & <-). now split.
  - destruct (named_split (pretty u) v' (eq_sym K) W') as [(n' & -> & I)|[(n' & l & -> & I & N & F)|(n' & l & -> & I & N & F)]].
    + cbn [pretty] in E. destruct (name_read n n' _ _ W I E) as (<- & <-); [intros c r; now apply ends_not_ident..|now split].
    + rewrite (pretty_tuple u n' l N), <- !app_assoc in E. cbn [pretty] in E. destruct (name_read n n' _ _ W I E) as (_ & ->); [intros c r; now apply ends_not_ident|apply not_ident_paren|].
      now apply ends_open in S.
    + rewrite (pretty_struct u n' l N), <- !app_assoc in E. cbn [pretty] in E. destruct (name_read n n' _ _ W I E) as (_ & ->); [intros c r; now apply ends_not_ident|apply not_ident_space|].
      now apply ends_open_brace in S.
  - destruct v'; try discriminate; [now apply atom_not_num in E|]. destruct (atom_read _ _ _ _ W W' S S' E) as (<- & <-). now split.
  - pose proof W as (I & N & F). apply forall_fold in F. destruct (named_split (pretty u) v' (eq_sym K) W') as [(n' & -> & I')|[(n' & l' & -> & I' & N' & F')|(n' & l' & -> & I' & N' & F')]].
    + rewrite (pretty_tuple u n l N), <- !app_assoc in E. cbn [pretty] in E. destruct (name_read n n' _ _ I I' E) as (_ & <-); [apply not_ident_paren|intros c r; now apply ends_not_ident|].
      now apply ends_open in S'.
    + rewrite (pretty_tuple u n l N), (pretty_tuple u n' l' N'), <- !app_assoc in E. destruct (name_read n n' _ _ I I' E) as (<- & E'); [apply not_ident_paren..|].
      injection E' as E'. destruct (entries_read (pretty u) well_formed 41 l l' s s') as (<- & <-); auto using pretty_nonempty, wf_reads_p; lia.
    + rewrite (pretty_tuple u n l N), (pretty_struct u n' l' N'), <- !app_assoc in E. destruct (name_read n n' _ _ I I' E) as (<- & E'); [apply not_ident_paren|apply not_ident_space|].
      discriminate E'.
  - destruct v' as [| | | | |l'|]; try discriminate. cbn [well_formed] in W, W'. apply forall_fold in W, W'. destruct l as [|x l], l' as [|x' l'].
    + cbn in E. injection E as <-. now split.
    + discriminate E.
    + discriminate E.
    + cbn [pretty] in E. rewrite <- !app_assoc in E. injection E as E.
      change (concat (map (fun v => entry (pretty u v)) (x :: l)) ++ 93 :: s = concat (map (fun v => entry (pretty u v)) (x' :: l')) ++ 93 :: s') in E.
      destruct (entries_read (pretty u) well_formed 93 (x :: l) (x' :: l') s s') as (Q & <-); auto using pretty_nonempty, wf_reads_p; [lia|]. now rewrite Q.
  - pose proof W as (I & N & _). pose proof (fields_ok _ _ W) as F. destruct (named_split (pretty u) v' (eq_sym K) W') as [(n' & -> & I')|[(n' & l' & -> & I' & N' & F')|(n' & l' & -> & I' & N' & F')]].
    + rewrite (pretty_struct u n l N), <- !app_assoc in E. cbn [pretty] in E. destruct (name_read n n' _ _ I I' E) as (_ & <-); [apply not_ident_space|intros c r; now apply ends_not_ident|].
      now apply ends_open_brace in S'.
    + rewrite (pretty_struct u n l N), (pretty_tuple u n' l' N'), <- !app_assoc in E. destruct (name_read n n' _ _ I I' E) as (<- & E'); [apply not_ident_space|apply not_ident_paren|].
      discriminate E'.
    + rewrite (pretty_struct u n l N), (pretty_struct u n' l' N'), <- !app_assoc in E. destruct (name_read n n' _ _ I I' E) as (<- & E'); [apply not_ident_space..|].
      injection E' as E'. destruct (entries_read (field_text (pretty u)) field_ok 125 l l' s s') as (<- & <-); auto using field_nonempty; [lia|now apply (wf_field_reads _ n)].
Qed.
