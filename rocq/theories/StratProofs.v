(* Stratified sums against Riemann integrals *)
From Coq Require Import Reals ZArith Lra Lia List.
From Flocq Require Import Core.
Import ListNotations.
Open Scope R_scope.

Definition integral (f : R -> R) (a b v : R) : Prop := exists pr : Riemann_integrable f a b, RiemannInt pr = v.
Definition lipschitz (f : R -> R) (a b L : R) : Prop := forall x y, a <= x <= b -> a <= y <= b -> Rabs (f x - f y) <= L * Rabs (x - y).

Lemma integral_unique f a b v w : integral f a b v -> integral f a b w -> v = w.
Proof. intros (p & <-) (q & <-). apply RiemannInt_P5. Qed.
Lemma integral_split f a b c v w u : integral f a b v -> integral f b c w -> integral f a c u -> v + w = u.
Proof. intros (p & <-) (q & <-) (r & <-). apply RiemannInt_P26. Qed.
Lemma integral_join f a b c v w : integral f a b v -> integral f b c w -> integral f a c (v + w).
Proof. intros (p & <-) (q & <-). exists (RiemannInt_P24 p q). symmetry. apply RiemannInt_P26. Qed.
Lemma integral_point f a : integral f a a 0.
Proof. exists (RiemannInt_P7 f a). apply RiemannInt_P9. Qed.
Lemma integral_sub f a b c d v : integral f a b v -> a <= c -> c <= d -> d <= b -> exists w, integral f c d w.
Proof.
  intros (p & _) A B C. assert (q : Riemann_integrable f a d) by (apply (RiemannInt_P22 p); lra).
  assert (r : Riemann_integrable f c d) by (apply (RiemannInt_P23 q); lra). exists (RiemannInt r). exists r. reflexivity.
Qed.
Lemma integral_bounds f a b v lo hi : a <= b -> integral f a b v -> (forall x, a < x < b -> lo <= f x <= hi) -> lo * (b - a) <= v <= hi * (b - a).
Proof.
  intros H (p & <-) B. split.
  - rewrite <- (RiemannInt_P15 (RiemannInt_P14 a b lo)). apply RiemannInt_P19; [exact H|]. intros x Hx. apply B, Hx.
  - rewrite <- (RiemannInt_P15 (RiemannInt_P14 a b hi)). apply RiemannInt_P19; [exact H|]. intros x Hx. apply B, Hx.
Qed.
Lemma integral_ext f g a b v : a <= b -> (forall x, a <= x <= b -> f x = g x) -> integral f a b v -> integral g a b v.
Proof.
  intros H E (p & <-). assert (q : Riemann_integrable g a b) by (apply (@Riemann_integrable_ext f g a b); [rewrite Rmin_left, Rmax_right by exact H; exact E|exact p]).
  exists q. symmetry. apply RiemannInt_P18; [exact H|]. intros x Hx. apply E. lra.
Qed.
Lemma integral_cont f a b : a <= b -> (forall x, a <= x <= b -> continuity_pt f x) -> exists v, integral f a b v.
Proof. intros H C. exists (RiemannInt (continuity_implies_RiemannInt H C)). eexists. reflexivity. Qed.
(* the fundamental theorem *)
Lemma integral_prim F f a b : a <= b -> (forall x, derivable_pt_lim F x (f x)) -> (forall x, continuity_pt f x) -> integral f a b (F b - F a).
Proof.
  intros H D C. pose (d := (fun x => exist _ (f x) (D x)) : derivable F).
  assert (E : forall x, derive F d x = f x) by reflexivity.
  assert (Cd : continuity (derive F d)) by exact C.
  assert (p : Riemann_integrable f a b) by (apply continuity_implies_RiemannInt; [exact H|intros; apply C]).
  exists p. exact (@RiemannInt_P33 (mkC1 Cd) a b p H).
Qed.
(* ---- Lipschitz functions ---- *)
Lemma lip_sub f a b c d L : lipschitz f a b L -> a <= c -> d <= b -> lipschitz f c d L.
Proof. intros H A B x y X Y. apply H; lra. Qed.
Lemma lip_mono f a b L M : lipschitz f a b L -> L <= M -> lipschitz f a b M.
Proof. intros H A x y X Y. apply Rle_trans with (L * Rabs (x - y)); [apply H; assumption|]. apply Rmult_le_compat_r; [apply Rabs_pos|exact A]. Qed.
Lemma lip_ext f g a b L : (forall x, a <= x <= b -> f x = g x) -> lipschitz f a b L -> lipschitz g a b L.
Proof. intros E H x y X Y. rewrite <- !E by assumption. apply H; assumption. Qed.
Lemma lip_bounded f a b L : a <= b -> 0 <= L -> lipschitz f a b L -> exists M, 0 <= M /\ forall x, a <= x <= b -> Rabs (f x) <= M.
Proof.
  intros AB HL H. exists (Rabs (f a) + L * (b - a)). split; [pose proof (Rabs_pos (f a)); nra|]. intros x X.
  pose proof (H x a X ltac:(lra)) as Q. rewrite (Rabs_right (x - a)) in Q by lra. pose proof (Rabs_triang (f x - f a) (f a)). replace (f x - f a + f a) with (f x) in H0 by ring. nra.
Qed.
Lemma lip_mult f g a b L M F G : 0 <= L -> 0 <= M -> lipschitz f a b L -> lipschitz g a b M ->
  (forall x, a <= x <= b -> Rabs (f x) <= F) -> (forall x, a <= x <= b -> Rabs (g x) <= G) -> lipschitz (fun x => f x * g x) a b (L * G + F * M).
Proof.
  intros HL HM Lf Lg Bf Bg x y X Y. replace (f x * g x - f y * g y) with ((f x - f y) * g x + f y * (g x - g y)) by ring.
  pose proof (Rabs_pos (f x - f y)). pose proof (Rabs_pos (g x - g y)). pose proof (Rabs_pos (f y)). pose proof (Rabs_pos (g x)). pose proof (Rabs_pos (x - y)).
  pose proof (Lf x y X Y). pose proof (Lg x y X Y). pose proof (Bf y Y). pose proof (Bg x X).
  apply Rle_trans with (Rabs ((f x - f y) * g x) + Rabs (f y * (g x - g y))); [apply Rabs_triang|]. rewrite !Rabs_mult.
  apply Rle_trans with (L * Rabs (x - y) * G + F * (M * Rabs (x - y))); [|right; ring].
  apply Rplus_le_compat; apply Rmult_le_compat; assumption.
Qed.
Definition lips (f : R -> R) (a b : R) : Prop := exists L, 0 <= L /\ lipschitz f a b L.
Lemma lips_mult f g a b : a <= b -> lips f a b -> lips g a b -> lips (fun x => f x * g x) a b.
Proof.
  intros AB (L & HL & A) (M & HM & B). destruct (lip_bounded f a b L AB HL A) as (F & HF & BF). destruct (lip_bounded g a b M AB HM B) as (G & HG & BG).
  exists (L * G + F * M). split; [pose proof (Rmult_le_pos _ _ HL HG); pose proof (Rmult_le_pos _ _ HF HM); lra|apply lip_mult; assumption].
Qed.
Lemma lips_plus f g a b : lips f a b -> lips g a b -> lips (fun x => f x + g x) a b.
Proof.
  intros (L & HL & A) (M & HM & B). exists (L + M). split; [lra|]. intros x y X Y. replace (f x + g x - (f y + g y)) with ((f x - f y) + (g x - g y)) by ring.
  pose proof (Rabs_triang (f x - f y) (g x - g y)). pose proof (A x y X Y). pose proof (B x y X Y). lra.
Qed.
Lemma lips_scale f k a b : lips f a b -> lips (fun x => f x * k) a b.
Proof.
  intros (L & HL & A). exists (L * Rabs k). split; [apply Rmult_le_pos; [exact HL|apply Rabs_pos]|]. intros x y X Y.
  replace (f x * k - f y * k) with ((f x - f y) * k) by ring. rewrite Rabs_mult. pose proof (A x y X Y). pose proof (Rabs_pos k). nra.
Qed.
Lemma lips_const k a b : lips (fun _ => k) a b.
Proof. exists 0. split; [lra|]. intros x y _ _. rewrite Rminus_diag_eq by reflexivity. rewrite Rabs_R0. lra. Qed.
Lemma lips_ext f g a b : (forall x, a <= x <= b -> f x = g x) -> lips f a b -> lips g a b.
Proof. intros E (L & HL & A). exists L. split; [exact HL|apply (lip_ext f); assumption]. Qed.
Lemma deriv_lip f f1 a b L : (forall x, a <= x <= b -> derivable_pt_lim f x (f1 x)) -> (forall x, a <= x <= b -> Rabs (f1 x) <= L) -> lipschitz f a b L.
Proof.
  intros D B. assert (G : forall x y, a <= x <= b -> a <= y <= b -> x < y -> Rabs (f y - f x) <= L * (y - x)).
  { intros x y X Y H. assert (D' : forall c, x <= c <= y -> derivable_pt_lim f c (f1 c)) by (intros c Hc; apply D; lra).
    destruct (MVT_cor2 f f1 x y H D') as (c & E & Hc). rewrite E, Rabs_mult, (Rabs_right (y - x)) by lra. apply Rmult_le_compat_r; [lra|apply B; lra]. }
  intros x y X Y. destruct (Rtotal_order x y) as [H|[<-|H]].
  - rewrite (Rabs_minus_sym (f x)), (Rabs_minus_sym x), (Rabs_right (y - x)) by lra. apply G; assumption.
  - rewrite !Rminus_diag_eq, Rabs_R0 by reflexivity. lra.
  - rewrite (Rabs_right (x - y)) by lra. apply G; assumption.
Qed.
Lemma smooth_lips f f1 a b : a <= b -> (forall x, derivable_pt_lim f x (f1 x)) -> (forall x, continuity_pt f1 x) -> lips f a b.
Proof.
  intros AB D C. destruct (continuity_ab_maj f1 a b AB) as (M & HM & _); [intros; apply C|]. destruct (continuity_ab_min f1 a b AB) as (m & Hm & _); [intros; apply C|].
  exists (Rmax (Rabs (f1 M)) (Rabs (f1 m))). split; [apply Rle_trans with (2 := Rmax_l _ _), Rabs_pos|]. apply (deriv_lip f f1); [intros; apply D|].
  intros x X. specialize (HM x X). specialize (Hm x X). apply Rabs_le. pose proof (Rmax_l (Rabs (f1 M)) (Rabs (f1 m))). pose proof (Rmax_r (Rabs (f1 M)) (Rabs (f1 m))).
  pose proof (Rle_abs (f1 M)). pose proof (Rle_abs (- f1 m)). rewrite Rabs_Ropp in *. lra.
Qed.
Definition clamp a b x := Rmax a (Rmin x b).
Lemma clamp_in a b x : a <= b -> a <= clamp a b x <= b.
Proof. intro H. unfold clamp. unfold Rmax, Rmin. destruct (Rle_dec x b), (Rle_dec a _); lra. Qed.
Lemma clamp_id a b x : a <= x <= b -> clamp a b x = x.
Proof. intro H. unfold clamp. rewrite Rmin_left, Rmax_right by lra. reflexivity. Qed.
Lemma clamp_lip a b x y : a <= b -> Rabs (clamp a b x - clamp a b y) <= Rabs (x - y).
Proof.
  intro H. unfold clamp, Rmax, Rmin. destruct (Rle_dec x b), (Rle_dec y b); repeat match goal with |- context [Rle_dec a ?z] => destruct (Rle_dec a z) end;
  unfold Rabs; repeat match goal with |- context [Rcase_abs ?z] => destruct (Rcase_abs z) end; lra.
Qed.
Lemma lips_integral f a b : a <= b -> lips f a b -> exists v, integral f a b v.
Proof.
  intros AB (L & HL & A). destruct (integral_cont (fun x => f (clamp a b x)) a b AB) as (v & V).
  - intros x _ eps He. assert (P : 0 < eps / (L + 1)) by (apply Rdiv_lt_0_compat; lra). exists (eps / (L + 1)). split; [exact P|]. intros y [_ Hy]. cbn in *. unfold R_dist in *.
    apply Rle_lt_trans with (L * Rabs (y - x)).
    + apply Rle_trans with (L * Rabs (clamp a b y - clamp a b x)); [apply A; apply clamp_in, AB|]. apply Rmult_le_compat_l; [exact HL|apply clamp_lip, AB].
    + apply Rle_lt_trans with (L * (eps / (L + 1))); [apply Rmult_le_compat_l; lra|]. assert (eps / (L + 1) * (L + 1) = eps) by (field; lra). nra.
  - exists v. apply (integral_ext (fun x => f (clamp a b x))); [exact AB| |exact V]. intros x X. rewrite clamp_id by exact X. reflexivity.
Qed.

Lemma Rdiv_le_0_compat x y : 0 <= x -> 0 < y -> 0 <= x / y.
Proof. intros A B. apply Rmult_le_pos; [exact A|apply Rlt_le, Rinv_0_lt_compat, B]. Qed.
(* ---- sums ---- *)
Fixpoint sum_of {A : Type} (f : A -> R) (l : list A) : R := match l with [] => 0 | a :: l => f a + sum_of f l end.
Lemma sum_app {A} (f : A -> R) l m : sum_of f (l ++ m) = sum_of f l + sum_of f m.
Proof. induction l as [|a l IH]; cbn [app sum_of]; [ring|rewrite IH; ring]. Qed.
Lemma sum_ext {A} (f g : A -> R) l : (forall x, In x l -> f x = g x) -> sum_of f l = sum_of g l.
Proof. induction l as [|a l IH]; intro H; cbn [sum_of]; [reflexivity|]. rewrite H by (left; reflexivity). rewrite IH; [reflexivity|]. intros x Hx. apply H. right. exact Hx. Qed.
Lemma sum_map {A B} (f : B -> R) (g : A -> B) l : sum_of f (map g l) = sum_of (fun x => f (g x)) l.
Proof. induction l as [|a l IH]; cbn [map sum_of]; [reflexivity|rewrite IH; reflexivity]. Qed.
Lemma sum_plus {A} (f g : A -> R) l : sum_of (fun x => f x + g x) l = sum_of f l + sum_of g l.
Proof. induction l as [|a l IH]; cbn [sum_of]; [ring|rewrite IH; ring]. Qed.
Lemma sum_scale {A} (f : A -> R) k l : sum_of (fun x => k * f x) l = k * sum_of f l.
Proof. induction l as [|a l IH]; cbn [sum_of]; [ring|rewrite IH; ring]. Qed.
Lemma sum_close {A} (f g : A -> R) l e : (forall x, In x l -> Rabs (f x - g x) <= e) -> Rabs (sum_of f l - sum_of g l) <= INR (length l) * e.
Proof.
  induction l as [|a l IH]; intro H.
  - cbn. rewrite Rminus_diag_eq, Rabs_R0 by reflexivity. lra.
  - cbn [sum_of length]. rewrite S_INR. replace (f a + sum_of f l - (g a + sum_of g l)) with ((f a - g a) + (sum_of f l - sum_of g l)) by ring.
    pose proof (Rabs_triang (f a - g a) (sum_of f l - sum_of g l)). pose proof (H a (or_introl eq_refl)). specialize (IH (fun x Hx => H x (or_intror Hx))). lra.
Qed.
Lemma sum_shift f s k n : sum_of f (seq (s + k) n) = sum_of (fun i => f (i + k)%nat) (seq s n).
Proof. revert s. induction n as [|n IH]; intro s; cbn [seq sum_of]; [reflexivity|]. rewrite <- IH. reflexivity. Qed.
Lemma sum_rot f n k : (k <= n)%nat -> sum_of (fun i => f ((i + k) mod n)%nat) (seq 0 n) = sum_of f (seq 0 n).
Proof.
  intro H. destruct (Nat.eq_dec n 0) as [->|N]; [reflexivity|].
  assert (E1 : seq 0 n = seq 0 (n - k) ++ seq (n - k) k) by (rewrite <- seq_app; f_equal; lia).
  assert (E2 : seq 0 n = seq 0 k ++ seq k (n - k)) by (rewrite <- seq_app; f_equal; lia).
  transitivity (sum_of (fun i => f ((i + k) mod n)%nat) (seq 0 (n - k) ++ seq (n - k) k)); [rewrite <- E1; reflexivity|]. rewrite E2, !sum_app.
  rewrite (Rplus_comm (sum_of f (seq 0 k))). f_equal.
  - cbn [Nat.add]. rewrite (sum_shift f 0 k). apply sum_ext. intros i Hi. apply in_seq in Hi. rewrite Nat.mod_small by lia. reflexivity.
  - cbn [Nat.add]. rewrite (sum_shift _ 0 (n - k)). apply sum_ext. intros i Hi. apply in_seq in Hi.
    replace (i + (n - k) + k)%nat with (i + 1 * n)%nat by lia. rewrite Nat.mod_add, Nat.mod_small by lia. reflexivity.
Qed.

(* ---- one value of f in each of n equal cells ---- *)
Section Cells.
Context (f : R -> R) (a b L : R) (n : nat) (v : R) (Hab : a <= b) (Hn : (0 < n)%nat) (L0 : 0 <= L) (HL : lipschitz f a b L) (HI : integral f a b v).
Definition knot (i : nat) : R := a + (b - a) * INR i / INR n.
Lemma knot_in i : (i <= n)%nat -> a <= knot i <= b.
Proof.
  intro H. unfold knot. assert (0 < INR n) by (apply lt_0_INR, Hn). pose proof (pos_INR i). assert (INR i <= INR n) by (apply le_INR, H).
  assert (Q : 0 <= INR i / INR n <= 1). { split; [apply Rdiv_le_0_compat; lra|]. apply Rmult_le_reg_r with (INR n); [assumption|]. unfold Rdiv. rewrite Rmult_assoc, Rinv_l by lra. lra. }
  replace ((b - a) * INR i / INR n) with ((b - a) * (INR i / INR n)) by (unfold Rdiv; ring). nra.
Qed.
Lemma knot_step i : knot (S i) = knot i + (b - a) / INR n.
Proof. assert (0 < INR n) by (apply lt_0_INR, Hn). unfold knot. rewrite S_INR. field. lra. Qed.
Lemma knot_0 : knot 0 = a. Proof. unfold knot. cbn [INR]. unfold Rdiv. ring. Qed.
Lemma knot_n : knot n = b. Proof. assert (0 < INR n) by (apply lt_0_INR, Hn). unfold knot. field. lra. Qed.
Lemma step_pos : 0 <= (b - a) / INR n.
Proof. apply Rdiv_le_0_compat; [lra|apply lt_0_INR, Hn]. Qed.
Lemma cells_sum : forall k, (k <= n)%nat -> forall w, (forall i, (i < k)%nat -> knot i <= w i <= knot (S i)) ->
  exists u, integral f a (knot k) u /\ Rabs ((b - a) / INR n * sum_of (fun i => f (w i)) (seq 0 k) - u) <= INR k * (L * ((b - a) / INR n) * ((b - a) / INR n)).
Proof.
  pose proof step_pos as SP. set (d := (b - a) / INR n) in *. assert (LD : 0 <= L * d * d) by (apply Rmult_le_pos; [apply Rmult_le_pos|]; assumption).
  induction k as [|k IH]; intros Hk w Hw.
  - exists 0. rewrite knot_0. split; [apply integral_point|]. cbn. rewrite Rmult_0_r, Rminus_diag_eq, Rabs_R0 by reflexivity. lra.
  - destruct (IH ltac:(lia) w (fun i Hi => Hw i ltac:(lia))) as (u & U & B). pose proof (knot_in k ltac:(lia)). pose proof (knot_in (S k) Hk). pose proof (knot_step k) as ST. fold d in ST.
    destruct (integral_sub f a b (knot k) (knot (S k)) v HI) as (c & C); try lra. exists (u + c). split; [apply (integral_join f a (knot k)); assumption|].
    rewrite seq_S, sum_app. cbn [Nat.add sum_of]. pose proof (Hw k ltac:(lia)) as Wk.
    pose proof (integral_bounds f (knot k) (knot (S k)) c (f (w k) - L * d) (f (w k) + L * d) ltac:(lra) C) as Q. replace (knot (S k) - knot k) with d in Q by lra.
    assert (X : (f (w k) - L * d) * d <= c <= (f (w k) + L * d) * d).
    { apply Q. intros x Hx. pose proof (HL x (w k) ltac:(lra) ltac:(lra)) as Z. assert (Rabs (x - w k) <= d) by (apply Rabs_le; lra).
      assert (L * Rabs (x - w k) <= L * d) by (apply Rmult_le_compat_l; assumption).
      apply Rabs_le_inv in Z. lra. }
    rewrite S_INR. replace (d * (sum_of (fun i => f (w i)) (seq 0 k) + (f (w k) + 0)) - (u + c)) with ((d * sum_of (fun i => f (w i)) (seq 0 k) - u) + (f (w k) * d - c)) by ring.
    pose proof (Rabs_triang (d * sum_of (fun i => f (w i)) (seq 0 k) - u) (f (w k) * d - c)). assert (Rabs (f (w k) * d - c) <= L * d * d) by (apply Rabs_le; lra). lra.
Qed.
Theorem cells_mean w : (forall i, (i < n)%nat -> knot i <= w i <= knot (S i)) -> a < b ->
  Rabs (sum_of (fun i => f (w i)) (seq 0 n) / INR n - v / (b - a)) <= L * (b - a) / INR n.
Proof.
  intros Hw AB. destruct (cells_sum n (le_n n) w Hw) as (u & U & B). rewrite knot_n in U. rewrite (integral_unique _ _ _ _ _ U HI) in B. clear u U.
  assert (N : 0 < INR n) by (apply lt_0_INR, Hn). set (s := sum_of _ _) in *.
  replace (s / INR n - v / (b - a)) with (((b - a) / INR n * s - v) * / (b - a)) by (field; lra). rewrite Rabs_mult, (Rabs_right (/ (b - a))) by (apply Rle_ge, Rlt_le, Rinv_0_lt_compat; lra).
  apply Rle_trans with (INR n * (L * ((b - a) / INR n) * ((b - a) / INR n)) * / (b - a)).
  - apply Rmult_le_compat_r; [apply Rlt_le, Rinv_0_lt_compat; lra|exact B].
  - right. field. lra.
Qed.
End Cells.

(* n cells, one number in each, shifted by k cells around the circle *)
Theorem rotated_mean f a b L n k v w : a < b -> (0 < n)%nat -> (k <= n)%nat -> 0 <= L -> lipschitz f a b L -> integral f a b v ->
  (forall i, (i < n)%nat -> knot a b n ((i + k) mod n) <= w i <= knot a b n (S ((i + k) mod n))) ->
  Rabs (sum_of (fun i => f (w i)) (seq 0 n) / INR n - v / (b - a)) <= L * (b - a) / INR n.
Proof.
  intros AB Hn Hk L0 HL HI Hw. 
  assert (R1 : forall j, (j < n)%nat -> ((j + (n - k)) mod n + k) mod n = j).
  { intros j Hj. rewrite Nat.add_mod_idemp_l by lia. replace (j + (n - k) + k)%nat with (j + 1 * n)%nat by lia. rewrite Nat.mod_add, Nat.mod_small by lia. reflexivity. }
  rewrite <- (sum_rot (fun i => f (w i)) n (n - k) ltac:(lia)).
  apply (cells_mean f a b L n v ltac:(lra) Hn L0 HL HI (fun j => w ((j + (n - k)) mod n)%nat)); [|exact AB].
  intros j Hj. pose proof (Hw ((j + (n - k)) mod n)%nat ltac:(apply Nat.mod_upper_bound; lia)) as Q. rewrite (R1 j Hj) in Q. exact Q.
Qed.
