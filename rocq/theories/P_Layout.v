(** Layouts. *)
From Verif Require Import M_Base M_Header M_Layout S_Layout.
Local Open Scope Z_scope.

Section ty_ind.
  Context (P : ty -> Prop).
  Context (Pn : forall n, P (Num n)) (Pa : forall t n, P t -> P (Arr t n)).
  Context (Ps : forall l, Forall P l -> P (Struct l)) (Pu : forall l, Forall P l -> P (Union l)).
  Fixpoint ty_rect' (t : ty) : P t :=
    let go := fix go (l : list ty) : Forall P l :=
      match l with [] => Forall_nil P | t :: r => Forall_cons t (ty_rect' t) (go r) end in
    match t with
    | Num n => Pn n
    | Arr t n => Pa t n (ty_rect' t)
    | Struct l => Ps l (go l)
    | Union l => Pu l (go l)
    end.
End ty_ind.

Lemma pad_first al n : 0 < al -> first_multiple al n (pad n al).
Proof.
  intros A. unfold pad. pose proof (Z.mod_pos_bound (- n) al A) as B. split; [|split].
  - exists (- (- n / al)). rewrite Z.mod_eq by lia. ring.
  - lia.
  - intros m' (k & ->) L. rewrite Z.mod_eq in * by lia. pose proof (Z.div_mod (- n) al ltac:(lia)).
    assert (- n / al >= - k); [|nia]. apply Z.le_ge, Z.div_le_lower_bound; nia.
Qed.
Lemma first_unique al n m m' : first_multiple al n m -> first_multiple al n m' -> m = m'.
Proof. intros (D & L & M) (D' & L' & M'). specialize (M _ D' L'). specialize (M' _ D L). lia. Qed.

Lemma place_placed fields : Forall (fun f => 0 < snd f) fields -> forall off, placed off fields (fst (place off fields)) (snd (place off fields)).
Proof.
  induction 1 as [|(s & al) r A F IH]; intros off; cbn; [constructor|]. specialize (IH (pad off al + s)).
  destruct (place (pad off al + s) r). cbn in *. constructor; [now apply pad_first|exact IH].
Qed.
Lemma placed_unique off fields os e : placed off fields os e -> forall os' e', placed off fields os' e' -> os = os' /\ e = e'.
Proof.
  induction 1 as [|off s al fields o os e F P IH]; intros os' e' Q; inversion Q; subst; [now split|].
  assert (o = o0) by (eapply first_unique; eassumption). subst o0. destruct (IH _ _ H6) as (-> & ->). now split.
Qed.

Lemma align_pos a8 t : 0 < a8 -> c_type t -> 0 < align a8 t.
Proof.
  intros A. induction t as [n|t n IH|l IH|l IH] using ty_rect'; cbn; intros C.
  - unfold num_align. destruct (n =? 8); lia.
  - auto.
  - clear -l. induction l; cbn; lia.
  - clear -l. induction l; cbn; lia.
Qed.
Lemma fold_largest a8 l : 0 < a8 -> l <> [] -> fold_right (fun t P => c_type t /\ P) True l ->
  largest (fold_right (fun t m => Z.max (align a8 t) m) 1 l) (map (align a8) l).
Proof.
  intros A. induction l as [|t l IH]; [now destruct 1|]. intros _ (C & R). cbn. pose proof (align_pos a8 t A C) as T.
  destruct l as [|t' l].
  - cbn. rewrite Z.max_l by lia. split; [now left|repeat constructor; lia].
  - destruct IH as (I & F); [discriminate|exact R|]. set (m := fold_right _ 1 (t' :: l)) in *. set (r := map _ _) in *. split.
    + destruct (Z.max_spec (align a8 t) m) as [(_ & ->)|(_ & ->)]; [right; exact I|now left].
    + constructor; [lia|]. eapply Forall_impl; [|exact F]. intros; cbn in *; lia.
Qed.
Lemma size_pos a8 t : 0 < a8 -> c_type t -> 0 <= size a8 t.
Proof.
  intros A. induction t as [n|t n IH|l IH|l IH] using ty_rect'; intros C.
  - cbn in *. lia.
  - cbn in *. specialize (IH C). lia.
  - pose proof (align_pos a8 (Struct l) A C) as B. cbn [size]. destruct (pad_first (align a8 (Struct l)) (snd (place 0 (map (fun t => (size a8 t, align a8 t)) l))) B) as (_ & L & _).
    enough (forall off, 0 <= off -> 0 <= snd (place off (map (fun t => (size a8 t, align a8 t)) l))) as H by (specialize (H 0 ltac:(lia)); lia).
    destruct C as (_ & C). clear B L. induction IH as [|t l T F I]; intros off O; cbn; [lia|]. destruct C as (C & R).
    pose proof (align_pos a8 t A C) as B. destruct (pad_first (align a8 t) off B) as (_ & L & _). specialize (I R (pad off (align a8 t) + size a8 t)).
    destruct (place _ _). cbn in *. specialize (T C). lia.
  - pose proof (align_pos a8 (Union l) A C) as B. cbn [size]. match goal with |- 0 <= pad ?x _ => destruct (pad_first (align a8 (Union l)) x B) as (_ & L & _); enough (0 <= x) by lia end.
    clear. induction l; cbn; lia.
Qed.
Lemma fold_largest_size a8 l : 0 < a8 -> l <> [] -> fold_right (fun t P => c_type t /\ P) True l ->
  largest (fold_right (fun t m => Z.max (size a8 t) m) 0 l) (map (size a8) l).
Proof.
  intros A. induction l as [|t l IH]; [now destruct 1|]. intros _ (C & R). cbn [map fold_right]. pose proof (size_pos a8 t A C) as T.
  destruct l as [|t' l].
  - cbn [map fold_right]. rewrite Z.max_l by lia. split; [now left|repeat constructor; lia].
  - destruct IH as (I & F); [discriminate|exact R|]. set (m := fold_right _ 0 (t' :: l)) in *. set (r := map _ _) in *. split.
    + destruct (Z.max_spec (size a8 t) m) as [(_ & ->)|(_ & ->)]; [right; exact I|now left].
    + constructor; [lia|]. eapply Forall_impl; [|exact F]. intros; cbn in *; lia.
Qed.

Lemma layout_rules a8 t : 0 < a8 -> c_type t -> c_layout a8 t (size a8 t) (align a8 t) (offsets a8 t).
Proof.
  intros A. induction t as [n|t n IH|l IH|l IH] using ty_rect'; intros C.
  - now constructor.
  - cbn [size align offsets]. eapply c_arr. now apply IH.
  - pose proof C as (N & F). cbn [size offsets]. eapply c_struct with (shapes := map (fun t => (size a8 t, align a8 t)) l).
    + clear N C. induction IH as [|t l T G I]; [constructor|]. destruct F as (C & F). cbn [map]. constructor; [|now apply I]. eexists. now apply T.
    + apply place_placed. clear N C IH. induction l as [|t l I]; [constructor|]. destruct F as (C & F). constructor; [now apply align_pos|now apply I].
    + rewrite map_map. cbn [snd]. now apply fold_largest.
    + apply pad_first. now apply align_pos.
  - pose proof C as (N & F). cbn [size offsets]. eapply c_union with (shapes := map (fun t => (size a8 t, align a8 t)) l).
    + clear N C. induction IH as [|t l T G I]; [constructor|]. destruct F as (C & F). cbn [map]. constructor; [|now apply I]. eexists. now apply T.
    + rewrite map_map. cbn [fst]. now apply fold_largest_size.
    + rewrite map_map. cbn [snd]. now apply fold_largest.
    + apply pad_first. now apply align_pos.
Qed.

Lemma largest_unique m m' l : largest m l -> largest m' l -> m = m'.
Proof.
  intros (I & F) (I' & F'). rewrite Forall_forall in F, F'. specialize (F _ I'). specialize (F' _ I). lia.
Qed.
Lemma shapes_unique a8 l : Forall (fun t => forall s al os s' al' os', c_layout a8 t s al os -> c_layout a8 t s' al' os' -> s = s' /\ al = al' /\ os = os') l ->
  forall p q, Forall2 (fun t sh => exists os', c_layout a8 t (fst sh) (snd sh) os') l p -> Forall2 (fun t sh => exists os', c_layout a8 t (fst sh) (snd sh) os') l q -> p = q.
Proof.
  induction 1 as [|t l T F I]; intros p q P Q; inversion P as [|? ? ? ? (? & A) P']; inversion Q as [|? ? ? ? (? & B) Q']; subst; [reflexivity|].
  destruct (T _ _ _ _ _ _ A B) as (E & E' & _). f_equal; [now apply injective_projections|eapply I; eassumption].
Qed.
Lemma layout_unique a8 t : forall s al os s' al' os', c_layout a8 t s al os -> c_layout a8 t s' al' os' -> s = s' /\ al = al' /\ os = os'.
Proof.
  induction t as [n|t n IH|l IH|l IH] using ty_rect'; intros s al os s' al' os' L L';
    [inversion L; inversion L'; subst|inversion L as [|? ? ? ? ? A| |]; inversion L' as [|? ? ? ? ? B| |]; subst
    |inversion L as [| |? p ? ? ? ? A1 A2 A3 A4|]; inversion L' as [| |? q ? ? ? ? B1 B2 B3 B4|]; subst
    |inversion L as [| | |? p ? ? ? A1 A2 A3 A4]; inversion L' as [| | |? q ? ? ? B1 B2 B3 B4]; subst].
  - now repeat split.
  - destruct (IH _ _ _ _ _ _ A B) as (-> & -> & _). now repeat split.
  - pose proof (shapes_unique a8 l IH p q A1 B1). subst q. destruct (placed_unique _ _ _ _ A2 _ _ B2) as (-> & ->). pose proof (largest_unique _ _ _ A3 B3). subst al'.
    pose proof (first_unique _ _ _ _ A4 B4). subst s'. now repeat split.
  - pose proof (shapes_unique a8 l IH p q A1 B1). subst q. pose proof (largest_unique _ _ _ A2 B2). subst m0. pose proof (largest_unique _ _ _ A3 B3). subst al'.
    pose proof (first_unique _ _ _ _ A4 B4). subst s'. now repeat split.
Qed.

Lemma layout_only a8 t : 0 < a8 -> c_type t -> c_layout a8 t (size a8 t) (align a8 t) (offsets a8 t) /\
  forall s al os, c_layout a8 t s al os -> s = size a8 t /\ al = align a8 t /\ os = offsets a8 t.
Proof.
  intros A C. pose proof (layout_rules a8 t A C) as L. split; [exact L|]. intros s al os L'. exact (layout_unique a8 t s al os _ _ _ L' L).
Qed.

(** Fields of a structure do not overlap and lie within it. *)
Lemma placed_room off fields os e : placed off fields os e -> Forall (fun f => 0 <= fst f) fields ->
  off <= e /\ length os = length fields /\
  (forall i, (i < length fields)%nat -> off <= nth i os 0 /\ (snd (nth i fields (0, 1)) | nth i os 0) /\ nth i os 0 + fst (nth i fields (0, 1)) <= e) /\
  (forall i j, (i < j < length fields)%nat -> nth i os 0 + fst (nth i fields (0, 1)) <= nth j os 0).
Proof.
  induction 1 as [|off s al fields o os e (D & L & M) P IH]; intros F.
  - repeat split; try lia; intros; cbn in *; lia.
  - inversion F as [|? ? S F']; subst. destruct (IH F') as (E & N & I & J). cbn in S. split; [lia|]. split; [cbn; lia|]. split.
    + intros [|i] K; cbn in *; [repeat split; [lia|exact D|lia]|]. destruct (I i ltac:(lia)) as (X & Y & Z). repeat split; [lia|exact Y|exact Z].
    + intros [|i] [|j] K; cbn in *; try lia; [apply (I j ltac:(lia))|apply J; lia].
Qed.
Lemma struct_room a8 l : 0 < a8 -> c_type (Struct l) ->
  length (offsets a8 (Struct l)) = length l /\
  (forall i, (i < length l)%nat -> 0 <= nth i (offsets a8 (Struct l)) 0 /\
     (align a8 (nth i l (Num 1)) | nth i (offsets a8 (Struct l)) 0) /\
     nth i (offsets a8 (Struct l)) 0 + size a8 (nth i l (Num 1)) <= size a8 (Struct l)) /\
  (forall i j, (i < j < length l)%nat -> nth i (offsets a8 (Struct l)) 0 + size a8 (nth i l (Num 1)) <= nth j (offsets a8 (Struct l)) 0).
Proof.
  intros A C. pose proof C as (N & F). set (fs := map (fun t => (size a8 t, align a8 t)) l).
  assert (P : placed 0 fs (fst (place 0 fs)) (snd (place 0 fs))).
  { apply place_placed. subst fs. clear N C. induction l as [|t l I]; [constructor|]. destruct F as (C & F). constructor; [now apply align_pos|now apply I]. }
  destruct (placed_room _ _ _ _ P) as (E & LN & I & J).
  { subst fs. clear N C P. induction l as [|t l I]; [constructor|]. destruct F as (C & F). constructor; [now apply size_pos|now apply I]. }
  assert (LF : length fs = length l) by apply map_length.
  assert (G : forall i, (i < length l)%nat -> fst (nth i fs (0, 1)) = size a8 (nth i l (Num 1)) /\ snd (nth i fs (0, 1)) = align a8 (nth i l (Num 1))).
  { intros i Hi. assert (X : nth i fs (0, 1) = (size a8 (nth i l (Num 1)), align a8 (nth i l (Num 1)))); [|now rewrite X].
    rewrite nth_indep with (d' := (size a8 (Num 1), align a8 (Num 1))) by (rewrite LF; exact Hi).
    subst fs. exact (map_nth (fun t => (size a8 t, align a8 t)) l (Num 1) i). }
  destruct (pad_first (align a8 (Struct l)) (snd (place 0 fs)) (align_pos a8 _ A C)) as (_ & S & _).
  change (pad (snd (place 0 fs)) (align a8 (Struct l))) with (size a8 (Struct l)) in S. change (offsets a8 (Struct l)) with (fst (place 0 fs)).
  rewrite LF in *. split; [exact LN|]. split.
  - intros i Hi. destruct (G i Hi) as (G1 & G2). destruct (I i Hi) as (X & Y & Z). rewrite G1 in Z. rewrite G2 in Y. repeat split; [exact X|exact Y|lia].
  - intros i j Hij. destruct (G i ltac:(lia)) as (G1 & _). specialize (J i j Hij). now rewrite G1 in J.
Qed.

(** The structures of the crate. *)
Lemma crate_layouts :
  layout 8 t_date_time = c_date_time /\ layout 8 t_encoded_xyz = c_encoded_xyz /\ layout 8 t_profile_id = c_profile_id /\
  layout 8 t_header = c_header /\ layout 8 t_tag_entry = c_tag_entry /\ layout 8 t_cie_xyz = c_cie_xyz.
Proof. repeat split; vm_compute; reflexivity. Qed.
Lemma crate_layouts_4 :
  layout 4 t_date_time = c_date_time /\ layout 4 t_encoded_xyz = c_encoded_xyz /\ layout 4 t_profile_id = c_profile_id /\
  layout 4 t_header = (fst (fst c_header), 4, snd c_header) /\ layout 4 t_tag_entry = c_tag_entry /\
  layout 4 t_cie_xyz = (fst (fst c_cie_xyz), 4, snd c_cie_xyz).
Proof. repeat split; vm_compute; reflexivity. Qed.
Lemma crate_converters a8 : a8 = 4 \/ a8 = 8 ->
  (size a8 t_header_converter = 128 /\ size a8 t_header = 128 /\ content t_header = 128) /\
  (size a8 t_tag_converter = 12 /\ size a8 t_tag_entry = 12 /\ content t_tag_entry = 12) /\
  (forall k, Z.of_nat (header_offset k) = nth k (offsets a8 t_header) 0) /\
  header_fields = map (fun t => (size 8 t, align 8 t)) (fields t_header).
Proof.
  intros A. split; [|split; [|split; [|vm_compute; reflexivity]]].
  - destruct A as [-> | ->]; repeat split; vm_compute; reflexivity.
  - destruct A as [-> | ->]; repeat split; vm_compute; reflexivity.
  - intros k. do 18 (destruct k as [|k]; [destruct A as [-> | ->]; vm_compute; reflexivity|]).
    unfold header_offset. rewrite !nth_overflow; [reflexivity|destruct A as [-> | ->]; vm_compute; lia|vm_compute; lia].
Qed.
Lemma crate_c_types : Forall c_type [t_date_time; t_encoded_xyz; t_profile_id; t_header; t_tag_entry; t_cie_xyz; t_header_converter; t_tag_converter].
Proof. repeat constructor; cbn; repeat split; try lia; discriminate. Qed.
(** A structure with padding. *)
Lemma padded_layout : c_type (Struct [Num 1; Num 8; Num 2]) /\
  layout 8 (Struct [Num 1; Num 8; Num 2]) = (24, 8, [0; 8; 16]) /\ layout 4 (Struct [Num 1; Num 8; Num 2]) = (16, 4, [0; 4; 12]) /\ content (Struct [Num 1; Num 8; Num 2]) = 11.
Proof. repeat split; try lia; discriminate. Qed.
(** The offsets the header is read at follow the same rule. *)
Lemma repr_c_place fs : forall off, repr_c off fs = fst (place off fs).
Proof.
  induction fs as [|(s & al) r IH]; intros off; [reflexivity|]. cbn [repr_c place]. rewrite IH. unfold pad.
  now destruct (place (off + (- off) mod al + s) r).
Qed.
Lemma header_rule a8 l : repr_c 0 (map (fun t => (size a8 t, align a8 t)) l) = offsets a8 (Struct l).
Proof. apply repr_c_place. Qed.
