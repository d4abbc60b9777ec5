(** Proofs: the direction of every curve (C115). *)
From Coq Require Import ZArith Reals Lra Lia List.
From Verif Require Import M_Base M_Curve M_CurveReal S_Curve S_Curve2 S_Direction P_Curve P_Curve2 Props_Curve Props_Curve2.
Import ListNotations.
Open Scope R_scope.

Lemma pw u v g : 0 < u < v -> g <> 0 -> 0 < g * (power v g - power u g).
Proof.
  intros U G. rewrite !power_pos by lra. unfold Rpower. assert (L : ln u < ln v) by (apply ln_increasing; lra).
  destruct (Rtotal_order g 0) as [N|[N|N]]; [|contradiction|].
  - assert (exp (g * ln v) < exp (g * ln u)) by (apply exp_increasing; nra). nra.
  - assert (exp (g * ln u) < exp (g * ln v)) by (apply exp_increasing; nra). nra.
Qed.
(** The same for the power of a line, in either direction. *)
Lemma pw_line a b g x x' : 0 < a * x + b -> 0 < a * x' + b -> x < x' -> g <> 0 -> a <> 0 -> 0 < g * a * (power (a * x' + b) g - power (a * x + b) g).
Proof.
  intros P P' L G A. destruct (Rtotal_order a 0) as [N|[N|N]]; [|contradiction|].
  - pose proof (pw (a * x' + b) (a * x + b) g ltac:(nra) G). nra.
  - pose proof (pw (a * x + b) (a * x' + b) g ltac:(nra) G). nra.
Qed.
Lemma pos_of a s d : 0 < a -> 0 < s * a * d -> 0 < s * d.
Proof. intros. nra. Qed.
Lemma shift_diff p q c : (q + c) - (p + c) = q - p. Proof. ring. Qed.
Lemma break_in a b x : 0 < a -> 0 < a * x + b -> - b / a < x.
Proof. intros A P. apply Rmult_lt_reg_r with a; [exact A|]. replace (- b / a * a) with (- b) by (field; lra). lra. Qed.

Lemma dir1 g : g <> 0 -> goes g 1 [g] (fun x => 0 < x).
Proof.
  intros G x x' P P' L. exists (icc1 g x), (icc1 g x'). split; [apply C72_type1; lra|]. split; [apply C72_type1; lra|]. apply pw; lra.
Qed.
Lemma dir2 g a b : tol <= a -> g <> 0 -> goes g 2 [g; a; b] (fun x => 0 < a * x + b).
Proof.
  intros A G x x' P P' L. pose proof tol_pos as T. exists (icc2 g a b x), (icc2 g a b x'). split; [now apply C72_type2|]. split; [now apply C72_type2|].
  pose proof (break_in a b x ltac:(lra) P). pose proof (break_in a b x' ltac:(lra) P').
  unfold icc2. destruct (Rle_dec _ x); [|lra]. destruct (Rle_dec _ x'); [|lra]. apply (pos_of a); [lra|]. apply pw_line; lra.
Qed.
Lemma dir3 g a b c : tol <= a -> g <> 0 -> goes g 3 [g; a; b; c] (fun x => 0 <= x /\ 0 < a * x + b).
Proof.
  intros A G x x' (X & P) (X' & P') L. pose proof tol_pos as T. exists (power (a * x + b) g + c), (power (a * x' + b) g + c).
  assert (V : forall u, 0 <= u -> 0 < a * u + b -> eval_real 3 [g; a; b; c] u = Some (Fin (power (a * u + b) g + c))).
  { intros u U Q. rewrite C72_type3 by exact A. pose proof (break_in a b u ltac:(lra) Q).
    destruct (Rlt_dec u 0); [lra|]. destruct (Rlt_dec u _); [lra|]. destruct (Req_EM_T u _); [lra|]. reflexivity. }
  split; [now apply V|]. split; [now apply V|]. rewrite shift_diff. apply (pos_of a); [lra|]. apply pw_line; lra.
Qed.
Lemma dir5_power g a b c d e f : g <> 0 -> a <> 0 -> goes (g * a) 5 [g; a; b; c; d; e; f] (fun x => d <= x /\ 0 < a * x + b).
Proof.
  intros G A x x' (X & P) (X' & P') L. exists (power (a * x + b) g + e), (power (a * x' + b) g + e).
  assert (V : forall u, d <= u -> 0 < a * u + b -> eval_real 5 [g; a; b; c; d; e; f] u = Some (Fin (power (a * u + b) g + e))).
  { intros u U Q. rewrite C72_type5. unfold icc5. destruct (Rlt_dec u d); [lra|]. destruct (Rlt_dec (a * u + b) 0); [lra|]. destruct (Rle_dec d u); [reflexivity|lra]. }
  split; [now apply V|]. split; [now apply V|]. rewrite shift_diff. now apply pw_line.
Qed.
Lemma dir5_line g a b c d e f : c <> 0 -> goes c 5 [g; a; b; c; d; e; f] (fun x => x < d).
Proof.
  intros C x x' X X' L. exists (c * x + f), (c * x' + f).
  assert (V : forall u, u < d -> eval_real 5 [g; a; b; c; d; e; f] u = Some (Fin (c * u + f))).
  { intros u U. rewrite C72_type5. unfold icc5. destruct (Rlt_dec u d); [|lra]. destruct (Rle_dec d u); [lra|reflexivity]. }
  split; [now apply V|]. split; [now apply V|]. replace (c * x' + f - (c * x + f)) with (c * (x' - x)) by ring.
  rewrite <- Rmult_assoc. apply Rmult_lt_0_compat; [nra|lra].
Qed.
Lemma goes_4_5 s g a b c d D : goes s 5 [g; a; b; c; d; 0; 0] D -> goes s 4 [g; a; b; c; d] D.
Proof. intros H x x' X X' L. destruct (H x x' X X' L) as (y & y' & E & E' & S). rewrite C72_type5_generalises_type4 in E, E'. now exists y, y'. Qed.
Lemma dir5 g a b c d e f : 0 < g -> 0 < a -> 0 < c -> 0 <= a * d + b -> c * d + f <= break_value g a b d + e ->
  goes 1 5 [g; a; b; c; d; e; f] (fun _ => True).
Proof.
  intros G A C AD B x x' _ _ L. assert (VL : forall u, u < d -> eval_real 5 [g; a; b; c; d; e; f] u = Some (Fin (c * u + f))).
  { intros u U. rewrite C72_type5. unfold icc5. destruct (Rlt_dec u d); [|lra]. destruct (Rle_dec d u); [lra|reflexivity]. }
  assert (VU : forall u, d <= u -> eval_real 5 [g; a; b; c; d; e; f] u = Some (Fin (power (a * u + b) g + e)) /\ 0 <= a * u + b).
  { intros u U. assert (0 <= a * u + b) by nra. split; [|assumption]. rewrite C72_type5. unfold icc5. destruct (Rlt_dec u d); [lra|].
    destruct (Rlt_dec (a * u + b) 0); [lra|]. destruct (Rle_dec d u); [reflexivity|lra]. }
  destruct (Rlt_dec x' d) as [X'|X'].
  - exists (c * x + f), (c * x' + f). split; [apply VL; lra|]. split; [now apply VL|]. nra.
  - destruct (VU x' ltac:(lra)) as (E' & P'). destruct (Rlt_dec x d) as [X|X].
    + exists (c * x + f), (power (a * x' + b) g + e). split; [now apply VL|]. split; [exact E'|].
      assert (M : break_value g a b d <= power (a * x' + b) g).
      { unfold break_value. rewrite Rmax_right by exact AD. apply power_le; [split; [exact AD|nra]|exact G]. }
      assert (c * x < c * d) by nra. lra.
    + destruct (VU x ltac:(lra)) as (E & P). exists (power (a * x + b) g + e), (power (a * x' + b) g + e). split; [exact E|]. split; [exact E'|].
      assert (M : power (a * x + b) g < power (a * x' + b) g) by (apply power_lt; [split; [exact P|nra]|exact G]). lra.
Qed.
Lemma half_step c d f v : 0 < c -> v < c * d + f -> exists x, x < d /\ v < c * x + f.
Proof.
  intros C V. exists (d - (c * d + f - v) / (2 * c)). assert (P : 0 < (c * d + f - v) / (2 * c)) by (apply Rdiv_lt_0_compat; lra).
  split; [lra|]. replace (c * (d - (c * d + f - v) / (2 * c)) + f) with (v + (c * d + f - v) / 2) by (field; lra). lra.
Qed.
Lemma dir5_iff g a b c d e f : 0 < g -> 0 < a -> 0 < c -> 0 <= a * d + b ->
  (goes 1 5 [g; a; b; c; d; e; f] (fun _ => True) <-> c * d + f <= break_value g a b d + e).
Proof.
  intros G A C AD. split; [|now apply dir5]. intros H. destruct (Rle_dec (c * d + f) (break_value g a b d + e)) as [L|N]; [exact L|exfalso].
  destruct (half_step c d f (break_value g a b d + e) C ltac:(lra)) as (x & X & V). destruct (H x d I I X) as (y & y' & E & E' & S).
  rewrite C72_type5 in E, E'. unfold icc5 in E, E'. destruct (Rlt_dec x d); [|lra]. destruct (Rle_dec d x); [lra|].
  destruct (Rlt_dec d d); [lra|]. destruct (Rlt_dec (a * d + b) 0); [lra|]. destruct (Rle_dec d d); [|lra].
  injection E as <-. injection E' as <-. unfold break_value in V. rewrite Rmax_right in V by exact AD. lra.
Qed.
Lemma dir4_iff g a b c d : 0 < g -> 0 < a -> 0 < c -> 0 <= a * d + b ->
  (goes 1 4 [g; a; b; c; d] (fun _ => True) <-> c * d <= break_value g a b d).
Proof.
  intros G A C AD. split.
  - intros H. assert (K : goes 1 5 [g; a; b; c; d; 0; 0] (fun _ => True)).
    { intros x x' X X' L. destruct (H x x' X X' L) as (y & y' & E & E' & S). exists y, y'. now rewrite !C72_type5_generalises_type4. }
    apply dir5_iff in K; lra.
  - intros B. apply goes_4_5, dir5; lra.
Qed.
Lemma dir6 g a b c : g <> 0 -> a <> 0 -> goes (g * a) 6 [g; a; b; c] (fun x => 0 < a * x + b).
Proof.
  intros G A x x' P P' L. exists (power (a * x + b) g + c), (power (a * x' + b) g + c).
  assert (V : forall u, 0 < a * u + b -> eval_real 6 [g; a; b; c] u = Some (Fin (power (a * u + b) g + c))).
  { intros u U. rewrite C72_type6 by (right; lra). destruct (Rlt_dec _ 0); [lra|reflexivity]. }
  split; [now apply V|]. split; [now apply V|]. rewrite shift_diff. now apply pw_line.
Qed.
Lemma log_dir u v : 0 < u -> 0 < v -> 0 < (v - u) * (log_10 v - log_10 u) \/ u = v.
Proof.
  intros U V. pose proof ln10_pos as T. unfold log_10. destruct (Rtotal_order u v) as [L|[L|L]]; [left|now right|left].
  - pose proof (ln_increasing u v U L). replace (ln v / ln 10 - ln u / ln 10) with ((ln v - ln u) / ln 10) by (field; lra).
    apply Rmult_lt_0_compat; [lra|]. apply Rdiv_lt_0_compat; lra.
  - pose proof (ln_increasing v u V L). replace ((v - u) * (ln v / ln 10 - ln u / ln 10)) with ((u - v) * ((ln u - ln v) / ln 10)) by (field; lra).
    apply Rmult_lt_0_compat; [lra|]. apply Rdiv_lt_0_compat; lra.
Qed.
Lemma dir7_general g a b c d (D : R -> Prop) : a <> 0 -> b <> 0 -> (forall x, D x -> 0 < x \/ (x = 0 /\ 0 < g)) ->
  (forall x x', D x -> D x' -> x < x' -> 0 < g * (power x' g - power x g)) ->
  goes (g * a * b) 7 [g; a; b; c; d] (fun x => D x /\ 0 < b * power x g + c).
Proof.
  intros A B OK INC x x' (X & P) (X' & P') L. exists (icc7 g a b c d x), (icc7 g a b c d x').
  assert (V : forall u, D u -> 0 < b * power u g + c -> eval_real 7 [g; a; b; c; d] u = Some (Fin (icc7 g a b c d u))).
  { intros u U Q. rewrite C72_type7 by (now apply OK). destruct (Rle_dec _ 0); [lra|reflexivity]. }
  split; [now apply V|]. split; [now apply V|]. unfold icc7. rewrite shift_diff.
  specialize (INC x x' X X' L). set (w := power x g) in *. set (w' := power x' g) in *.
  destruct (log_dir (b * w + c) (b * w' + c) P P') as [H|H].
  - set (l := log_10 (b * w + c)) in *. set (l' := log_10 (b * w' + c)) in *.
    replace (g * a * b * (a * l' - a * l)) with (a * a * (g * b * (l' - l))) by ring.
    assert (0 < a * a) by nra. apply Rmult_lt_0_compat; [assumption|].
    replace ((b * w' + c - (b * w + c)) * (l' - l)) with ((w' - w) * (b * (l' - l))) in H by ring.
    replace (g * b * (l' - l)) with (g * (b * (l' - l))) by ring. set (q := b * (l' - l)) in *.
    assert (g <> 0) by (intros ->; lra). assert (w' - w <> 0) by (intros E; rewrite E in INC; lra).
    destruct (Rtotal_order g 0) as [N|[N|N]]; [|contradiction|]; destruct (Rtotal_order (w' - w) 0) as [M|[M|M]]; try contradiction; nra.
  - assert (b * (w' - w) = 0) by lra. apply Rmult_integral in H0. destruct H0 as [H0|H0]; [contradiction|]. rewrite H0 in INC. lra.
Qed.
Lemma dir7 g a b c d : g <> 0 -> a <> 0 -> b <> 0 -> goes (g * a * b) 7 [g; a; b; c; d] (fun x => 0 < x /\ 0 < b * power x g + c).
Proof.
  intros G A B. apply (dir7_general g a b c d (fun x => 0 < x) A B); [intros; now left|]. intros. apply pw; [lra|exact G].
Qed.
Lemma dir7_zero g a b c d : 0 < g -> a <> 0 -> b <> 0 -> goes (a * b) 7 [g; a; b; c; d] (fun x => 0 <= x /\ 0 < b * power x g + c).
Proof.
  intros G A B. assert (H : goes (g * a * b) 7 [g; a; b; c; d] (fun x => 0 <= x /\ 0 < b * power x g + c)).
  { apply (dir7_general g a b c d (fun x => 0 <= x) A B); [intros x X; destruct (Req_EM_T x 0); [right; lra|left; lra]|].
    intros x x' X X' L. assert (power x g < power x' g) by (apply power_lt; lra). nra. }
  intros x x' X X' L. destruct (H x x' X X' L) as (y & y' & E & E' & S). exists y, y'. split; [exact E|]. split; [exact E'|].
  replace (g * a * b * (y' - y)) with (a * b * g * (y' - y)) in S by ring. now apply (pos_of g).
Qed.
Lemma dir8 a b c d e : 0 < b -> a * c * ln b <> 0 -> goes (a * c * ln b) 8 [a; b; c; d; e] (fun _ => True).
Proof.
  intros B N x x' _ _ L. exists (icc8 a b c d e x), (icc8 a b c d e x'). split; [apply C72_type8; now left|]. split; [apply C72_type8; now left|].
  unfold icc8. rewrite shift_diff, !power_pos by exact B. unfold Rpower.
  set (p := (c * x + d) * ln b). set (p' := (c * x' + d) * ln b).
  assert (E : p' - p = c * ln b * (x' - x)) by (unfold p, p'; ring).
  assert (I : c * ln b <> 0) by (intros Z; apply N; replace (a * c * ln b) with (a * (c * ln b)) by ring; rewrite Z; ring).
  assert (A : a <> 0) by (intros ->; apply N; ring). assert (0 < a * a) by nra.
  replace (a * c * ln b * (a * exp p' - a * exp p)) with (a * a * (c * ln b * (exp p' - exp p))) by ring. apply Rmult_lt_0_compat; [assumption|].
  set (q := c * ln b) in *. destruct (Rtotal_order q 0) as [M|[M|M]]; [|contradiction|].
  - assert (p' < p) by nra. pose proof (exp_increasing p' p H0). nra.
  - assert (p < p') by nra. pose proof (exp_increasing p p' H0). nra.
Qed.
Lemma dir108 g : tol <= g -> goes 1 108 [g] (fun x => 0 <= x <= 1).
Proof. intros G x x' X X' L. destruct (C63_type108 g x x' G ltac:(lra) ltac:(lra)) as (y & y' & E & E' & S). exists y, y'. repeat split; try assumption. lra. Qed.
Lemma dir109 k : k <> 0 -> goes 1 109 [k] (fun _ => True).
Proof. intros G x x' X X' L. destruct (C63_type109 k x x' G L) as (y & y' & E & E' & S). exists y, y'. repeat split; try assumption. lra. Qed.

(** A reverse that finds preimages goes where the curve goes. *)
Lemma reverse_goes s t ps (D E : R -> Prop) : goes s t ps D ->
  (forall y, E y -> exists x, D x /\ eval_real (- t) ps y = Some (Fin x) /\ eval_real t ps x = Some (Fin y)) -> goes s (- t) ps E.
Proof.
  intros G PRE y y' Y Y' L. destruct (PRE y Y) as (x & X & R & F). destruct (PRE y' Y') as (x' & X' & R' & F').
  exists x, x'. split; [exact R|]. split; [exact R'|]. destruct (Rtotal_order x x') as [H|[H|H]].
  - destruct (G x x' X X' H) as (v & v' & V & V' & S). rewrite F in V. rewrite F' in V'. injection V as <-. injection V' as <-.
    assert (0 < s) by nra. nra.
  - subst x'. rewrite F in F'. injection F' as F'. lra.
  - destruct (G x' x X' X H) as (v & v' & V & V' & S). rewrite F' in V. rewrite F in V'. injection V as <-. injection V' as <-.
    assert (s < 0) by nra. nra.
Qed.
Lemma goes_scale s k t ps D : 0 < k -> goes (s * k) t ps D -> goes s t ps D.
Proof. intros K H x x' X X' L. destruct (H x x' X X' L) as (y & y' & E & E' & S). exists y, y'. split; [exact E|]. split; [exact E'|]. nra. Qed.
Lemma abs_nz0 g : tol <= Rabs g -> g <> 0.
Proof. intros G ->. rewrite Rabs_R0 in G. pose proof tol_pos. lra. Qed.
Lemma inside a b P : a <> 0 -> a * ((P - b) / a) + b = P. Proof. intros. field. assumption. Qed.

Lemma back1 g : tol <= Rabs g -> goes g (-1) [g] (fun y => 0 < y).
Proof.
  intros G. apply (reverse_goes g 1 [g] (fun x => 0 < x)); [apply dir1; now apply abs_nz0|].
  intros y Y. destruct (C73_type1 g y G (or_introl Y)) as (x & R & X & F). exists x. split; [|split; assumption]. subst x. now apply power_gt0.
Qed.
Lemma back2 g a b : tol <= Rabs g -> tol <= a -> goes g (-2) [g; a; b] (fun y => 0 < y /\ b <= power y (1 / g)).
Proof.
  intros G A. pose proof tol_pos. apply (reverse_goes g 2 [g; a; b] (fun x => 0 < a * x + b)); [apply dir2; [exact A|now apply abs_nz0]|].
  intros y (Y & B). destruct (C73_type2 g a b y G A Y B) as (x & R & X & F). exists x. split; [|split; assumption]. subst x. rewrite inside by lra. now apply power_gt0.
Qed.
Lemma back3 g a b c : g <> 0 -> tol <= a -> goes g (-3) [g; a; b; c] (fun y => c < y /\ b <= power (y - c) (1 / g)).
Proof.
  intros G A. pose proof tol_pos. apply (reverse_goes g 3 [g; a; b; c] (fun x => 0 <= x /\ 0 < a * x + b)); [now apply dir3|].
  intros y (Y & B). destruct (C73_type3 g a b c y G A Y B) as (x & R & X & F). exists x. split; [|split; assumption]. subst x. rewrite inside by lra. split.
  - apply Rmult_le_pos; [lra|left; apply Rinv_0_lt_compat; lra].
  - apply power_gt0. lra.
Qed.
Lemma back5 g a b c d e f : tol <= g -> tol <= a -> tol <= c -> 0 <= a * d + b -> c * d + f <= break_value g a b d + e ->
  goes 1 (-5) [g; a; b; c; d; e; f] (fun y => y < c * d + f \/ break_value g a b d + e <= y).
Proof.
  intros G A C AD B. pose proof tol_pos. apply (reverse_goes 1 5 [g; a; b; c; d; e; f] (fun _ => True)); [apply dir5; lra|].
  intros y Y. destruct (C73_type5 g a b c d e f y G A C) as (x & R & F); [lra|]. exists x. auto.
Qed.
Lemma back4 g a b c d : tol <= g -> tol <= a -> tol <= c -> 0 <= a * d + b -> c * d <= break_value g a b d ->
  goes 1 (-4) [g; a; b; c; d] (fun y => y < c * d \/ break_value g a b d <= y).
Proof.
  intros G A C AD B. pose proof tol_pos. apply (reverse_goes 1 4 [g; a; b; c; d] (fun _ => True)); [apply goes_4_5, dir5; lra|].
  intros y Y. destruct (C73_type4 g a b c d y G A C) as (x & R & F); [lra|]. exists x. auto.
Qed.
Lemma back6 g a b c : 0 < g -> tol <= Rabs a -> goes a (-6) [g; a; b; c] (fun y => c < y).
Proof.
  intros G A. pose proof (abs_nz0 a A) as NA. apply (goes_scale a g); [exact G|].
  apply (reverse_goes (a * g) 6 [g; a; b; c] (fun x => 0 < a * x + b)); [rewrite Rmult_comm; apply dir6; [lra|exact NA]|].
  intros y Y. destruct (C73_type6 g a b c y G A ltac:(lra)) as (x & R & X & F). exists x. split; [|split; assumption]. subst x. rewrite inside by exact NA. apply power_gt0. lra.
Qed.
Lemma type7_right_inside g a b c d y : tol <= g -> tol <= a -> tol <= b -> c <= power 10 ((y - d) / a) ->
  exists x, (0 <= x /\ 0 < b * power x g + c) /\ eval_real (-7) [g; a; b; c; d] y = Some (Fin x) /\ eval_real 7 [g; a; b; c; d] x = Some (Fin y).
Proof.
  intros G A B C. pose proof tol_pos as T. assert (I : 0 < 1 / g) by (apply Rdiv_lt_0_compat; lra).
  destruct (type7_right g a b c d y G A B C) as (x & R & X & F). exists x. split; [|now split]. split; [exact X|].
  set (z := (power 10 ((y - d) / a) - c) / b). assert (Z : 0 <= z) by (apply Rmult_le_pos; [lra|left; apply Rinv_0_lt_compat; lra]).
  assert (R' : eval_real (-7) [g; a; b; c; d] y = Some (Fin (power z (1 / g)))).
  { ev. rewrite !Rltb_f by assumption. cbn [orb]. rewrite div_fin by lra. rewrite pow_fin by lra. ar. rewrite div_fin by lra.
    fold z. rewrite div_fin by lra. now rewrite pow_fin0. }
  rewrite R in R'. injection R' as ->. rewrite power_undo' by lra.
  assert (E : b * z + c = power 10 ((y - d) / a)) by (unfold z; field; lra). rewrite E. apply power_gt0. lra.
Qed.
Lemma back7 g a b c d : tol <= g -> tol <= a -> tol <= b -> goes 1 (-7) [g; a; b; c; d] (fun y => c <= power 10 ((y - d) / a)).
Proof.
  intros G A B. pose proof tol_pos as T. apply (goes_scale 1 (a * b)); [nra|]. rewrite Rmult_1_l.
  apply (reverse_goes (a * b) 7 [g; a; b; c; d] (fun x => 0 <= x /\ 0 < b * power x g + c)); [apply dir7_zero; lra|].
  intros y Y. now apply type7_right_inside.
Qed.
Lemma back8 a b c d e : tol <= a -> 0 < b -> b <> 1 -> tol <= Rabs c -> goes (c * ln b) (-8) [a; b; c; d; e] (fun y => e < y).
Proof.
  intros A B B1 C. pose proof tol_pos as T. pose proof (abs_nz0 c C) as NC. apply (goes_scale (c * ln b) a); [lra|].
  assert (LB : ln b <> 0) by (intros Z; apply B1; apply ln_inv; [exact B|lra|now rewrite ln_1]).
  replace (c * ln b * a) with (a * c * ln b) by ring.
  apply (reverse_goes (a * c * ln b) 8 [a; b; c; d; e] (fun _ => True)).
  - apply dir8; [exact B|]. repeat apply Rmult_integral_contrapositive_currified; lra.
  - intros y Y. destruct (C73_type8 a b c d e y A B B1 C Y) as (x & R & _ & F). exists x. auto.
Qed.
Lemma back108 g : tol <= g -> goes 1 (-108) [g] (fun y => 0 <= y <= 1).
Proof.
  intros G. apply (reverse_goes 1 108 [g] (fun x => 0 <= x <= 1)); [now apply dir108|].
  intros y Y. destruct (C73_type108 g y G Y) as (x & R & X & _ & F). exists x. auto.
Qed.
Lemma back109 k : k <> 0 -> goes 1 (-109) [k] (fun y => exists x, y = sigmoid k x).
Proof.
  intros K y y' (x & ->) (x' & ->) L. destruct (C61_type109_round_trip k x K) as (v & F & -> & R). destruct (C61_type109_round_trip k x' K) as (v' & F' & -> & R').
  exists (((2 * x - 1) / ln 10 + 1) / 2), (((2 * x' - 1) / ln 10 + 1) / 2). split; [exact R|]. split; [exact R'|]. pose proof ln10_pos as T.
  assert (X : x < x').
  { destruct (Rtotal_order x x') as [H|[H|H]]; [exact H|subst; lra|]. destruct (dir109 k K x' x I I H) as (p & q & P & Q & S).
    rewrite F' in P. rewrite F in Q. injection P as <-. injection Q as <-. lra. }
  replace (1 * (((2 * x' - 1) / ln 10 + 1) / 2 - ((2 * x - 1) / ln 10 + 1) / 2)) with ((x' - x) / ln 10) by (field; lra). apply Rdiv_lt_0_compat; lra.
Qed.
