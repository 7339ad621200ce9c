(* C69, C75: the built-in tables and the reflectances built from them, exact arithmetic *)
From Coq Require Import Reals ZArith QArith Qreals Lra Lia List Bool.
From Flocq Require Import Core.
From Verif Require Import Outcome RealOps MathModel ColorModel InterpModel VspdModel UpliftModel XReal SpecLin VspdProofs PropShape SpragueProofs PropSprague AlignProofs PropAlign.
From Verif Require Import DataIllum DataCmf DataUplift DataChecker.
Import ListNotations.
Open Scope R_scope.

(* wavelengths s, s+h, s+2h, .. and values at least lo, checked on the decimals *)
Fixpoint table_ok (lo : Q) (s h : Z) (l : list (Q * Q)) : bool :=
  match l with
  | [] => true
  | (nm, v) :: l => (Qeq_bool nm (inject_Z s) && Qle_bool lo v && table_ok lo (s + h) h l)%bool
  end.

Section P.
Context {K : XConst}.

Definition vals (l : list (Q * Q)) : list R := map (fun p => Q2R (snd p)) l.
Lemma table_even lo h l : forall s, table_ok lo s h l = true ->
  map (fun '(nm, v) => Sample (rlitd nm) (rlitd v)) l = FinSamps (even (IZR s) (IZR h) (vals l)) /\ Forall (fun v => Q2R lo <= v) (vals l).
Proof.
  induction l as [|[nm v] l IH]; intros s H; [split; constructor|]. cbn [table_ok] in H. apply andb_true_iff in H. destruct H as [H H3]. apply andb_true_iff in H. destruct H as [H1 H2].
  destruct (IH _ H3) as [E F]. apply Qeq_bool_eq, Qeq_eqR in H1. apply Qle_bool_iff, Qle_Rle in H2. unfold vals. cbn [map snd]. rewrite even_cons. split; [|constructor; assumption].
  unfold FinSamps in *. cbn [map]. rewrite E, plus_IZR. f_equal. unfold FinSamp. cbn [fst snd]. rewrite !x_litd, H1. unfold Q2R, inject_Z. cbn. rewrite Rinv_1, Rmult_1_r. reflexivity.
Qed.

(* [l] is accepted by VSPD::new, has n samples at s, s+h, .., e and reports exactly that *)
Definition well_formed (l : list (Q * Q)) (s e h : R) (n : nat) (lo : R) : Prop :=
  exists v vs, vspd_table l = Ret v /\ v_shape v = shape s e h /\ v_wavelengths v = Fins (grid s h n) /\ v_values v = Fins vs
    /\ length vs = n /\ e = s + (INR n - 1) * h /\ (forall x, In x vs -> lo <= x)
    /\ v = uspd s e h vs (Uniform (Fin h)) /\ vs = vals l.
Lemma table_wf (OK : XConstOk K) l lo s e h n : table_ok lo s h l = true -> length l = n -> (2 <= n)%nat -> (e = s + (Z.of_nat n - 1) * h)%Z ->
  well_formed l (IZR s) (IZR e) (IZR h) n (Q2R lo).
Proof.
  intros T L N He. destruct (table_even lo h l s T) as [E F]. assert (Lv : length (vals l) = n) by (unfold vals; rewrite map_length; exact L).
  destruct (C48_grid_uniform (IZR s) (IZR h) (vals l) OK ltac:(lia)) as (v & Ev & Sv).
  assert (Ee : IZR e = IZR s + (INR n - 1) * IZR h) by (rewrite He, plus_IZR, mult_IZR, minus_IZR, <- INR_IZR_INZ; reflexivity).
  assert (SH : v_shape v = shape (IZR s) (IZR e) (IZR h)). { rewrite Sv. f_equal. rewrite Ee, Lv, minus_INR by lia. cbn [INR]. reflexivity. }
  change (combine (grid (IZR s) (IZR h) (length (vals l))) (vals l)) with (even (IZR s) (IZR h) (vals l)) in Ev.
  assert (S : v_samples v = FinSamps (even (IZR s) (IZR h) (vals l))).
  { unfold vspd_new in Ev. destruct (calculate_shape _); try discriminate. cbn [obind] in Ev. injection Ev as <-. reflexivity. }
  exists v, (vals l). unfold vspd_table. rewrite E. split; [exact Ev|]. split; [exact SH|]. unfold v_wavelengths, v_values. rewrite S, nms_fin, vals_fin, even_nms, even_vals, Lv.
  repeat apply conj; try reflexivity; try exact Ee.
  - intros x Hx. rewrite Forall_forall in F. apply F, Hx.
  - destruct v as [a b]. cbn [v_samples v_shape] in *. rewrite S, SH. reflexivity.
Qed.
Ltac wf := lazymatch goal with |- well_formed ?l (IZR ?s) (IZR ?e) (IZR ?h) ?n 0 =>
  replace 0 with (Q2R 0) by (unfold Q2R; cbn; lra); apply table_wf; [assumption|reflexivity|reflexivity|lia|reflexivity] end.

Theorem C75_illuminants_and_cmf : XConstOk K ->
  well_formed data_D50 300 780 5 97 0 /\ well_formed data_D55 300 780 5 97 0 /\ well_formed data_D60 300 830 5 107 0 /\ well_formed data_D65 300 780 5 97 0
  /\ well_formed data_x_bar 360 830 1 471 0 /\ well_formed data_y_bar 360 830 1 471 0 /\ well_formed data_z_bar 360 830 1 471 0.
Proof. intro OK. repeat apply conj; wf. Qed.
Fixpoint same_table (l m : list (Q * Q)) : bool :=
  match l, m with
  | [], [] => true
  | (a, b) :: l, (c, d) :: m => (Qeq_bool a c && Qeq_bool b d && same_table l m)%bool
  | _, _ => false
  end.
Lemma same_table_eq l : forall m, same_table l m = true -> vspd_table l = vspd_table m.
Proof.
  intros m H. unfold vspd_table. f_equal. revert m H. induction l as [|[a b] l IH]; intros [|[c d] m] H; try discriminate; [reflexivity|]. cbn [same_table] in H.
  apply andb_true_iff in H. destruct H as [H H3]. apply andb_true_iff in H. destruct H as [H1 H2]. cbn [map]. rewrite (IH m H3). f_equal.
  apply Qeq_bool_eq, Qeq_eqR in H1. apply Qeq_bool_eq, Qeq_eqR in H2. rewrite !x_litd, H1, H2. reflexivity.
Qed.
(* the 24 patches; the separate DARK_SKIN table is the first of them *)
Theorem C75_colour_checker : XConstOk K ->
  length data_spectral = 24%nat /\ vspd_table data_DARK_SKIN = vspd_table (nth 0 data_spectral []) /\ forall l, In l data_spectral -> well_formed l 380 730 10 36 0.
Proof.
  intro OK. split; [reflexivity|]. split; [apply same_table_eq; reflexivity|]. intros l Hl.
  assert (F : forallb (fun l => table_ok 0 380 10 l && Nat.eqb (length l) 36) data_spectral = true) by reflexivity.
  rewrite forallb_forall in F. specialize (F l Hl). apply andb_true_iff in F. destruct F as [F G]. apply Nat.eqb_eq in G.
  replace 0 with (Q2R 0) by (unfold Q2R; cbn; lra). apply table_wf; [exact OK|exact F|exact G|lia|reflexivity].
Qed.
(* the from_values tables: 81 values at 380 .. 780 step 5, and 32 from 380 step 10.9375 of which the
   last is at 719.0625 although the shape says 720 *)
Definition listed (o : outcome (vspd xr)) (l : list Q) (s e h : R) (n : nat) : Prop :=
  length l = n /\ o = Ret (uspd s e h (map Q2R l) (Uniform (Fin h))).
Lemma lits l : map rlitd l = Fins (map Q2R l).
Proof. unfold Fins. rewrite map_map. apply map_ext. reflexivity. Qed.
Lemma my_listed l : length l = 81%nat -> listed (vspd_from_values my_shape (map rlitd l)) l 380 780 5 81.
Proof.
  intro L. split; [exact L|]. assert (E : my_shape = shape 380 780 5) by (unfold my_shape, shape_new, shape; rewrite !x_litd; leq; clear; q2r; lra).
  rewrite E, lits, C50_from_values by (unfold countable; lra). destruct (Rle_dec 380 780); [|lra]. rewrite map_length, L. rewrite (Zfloor_imp 80) by (cbn; lra). cbn [Z.to_nat]. change (Pos.to_nat 80) with 80%nat. cbn [Nat.leb Nat.eqb Nat.add andb].
  unfold uspd, even. rewrite map_length, L. reflexivity.
Qed.
Lemma smits_listed l : length l = 32%nat -> listed (vspd_from_values smits_shape (map rlitd l)) l 380 720 (175 / 16) 32.
Proof.
  intro L. split; [exact L|]. assert (E : smits_shape = shape 380 720 (175 / 16)) by (unfold smits_shape, shape_new, shape; rewrite !x_litd; leq; clear; q2r; lra).
  rewrite E, lits, C50_from_values by (unfold countable; lra). destruct (Rle_dec 380 720); [|lra]. rewrite map_length, L. rewrite (Zfloor_imp 31) by (cbn; lra). cbn [Z.to_nat]. change (Pos.to_nat 31) with 31%nat. cbn [Nat.leb Nat.eqb Nat.add andb].
  unfold uspd, even. rewrite map_length, L. reflexivity.
Qed.
Theorem C75_uplift_tables :
  listed my_red data_MY_RED 380 780 5 81 /\ listed my_green data_MY_GREEN 380 780 5 81 /\ listed my_blue data_MY_BLUE 380 780 5 81
  /\ listed smits_white data_SMITS_WHITE 380 720 (175 / 16) 32 /\ listed smits_cyan data_SMITS_CYAN 380 720 (175 / 16) 32
  /\ listed smits_magenta data_SMITS_MAGENTA 380 720 (175 / 16) 32 /\ listed smits_yellow data_SMITS_YELLOW 380 720 (175 / 16) 32
  /\ listed smits_red data_SMITS_RED 380 720 (175 / 16) 32 /\ listed smits_green data_SMITS_GREEN 380 720 (175 / 16) 32 /\ listed smits_blue data_SMITS_BLUE 380 720 (175 / 16) 32.
Proof. do 3 (split; [apply my_listed; reflexivity|]). do 6 (split; [apply smits_listed; reflexivity|]). apply smits_listed; reflexivity. Qed.
(* within (a, b), checked on the decimals *)
Definition between (a b : Q) (l : list Q) : bool := forallb (fun x => negb (Qle_bool x a) && negb (Qle_bool b x))%bool l.
Lemma between_in a b l x : between a b l = true -> In x (map Q2R l) -> Q2R a < x < Q2R b.
Proof.
  intros H Hx. apply in_map_iff in Hx. destruct Hx as (q & <- & Hq). unfold between in H. rewrite forallb_forall in H. specialize (H q Hq). apply andb_true_iff in H. destruct H as [A B].
  assert (N : forall u v, negb (Qle_bool u v) = true -> Q2R v < Q2R u). { intros u v E. apply Qlt_Rlt, Qnot_le_lt. intro C. apply Qle_bool_iff in C. rewrite C in E. discriminate. }
  split; apply N; assumption.
Qed.
(* Smits' coloured spectra dip slightly below zero and white exceeds one *)
Theorem C75_uplift_ranges :
  (forall l x, In l [data_MY_RED; data_MY_GREEN; data_MY_BLUE] -> In x (map Q2R l) -> 0 < x < 1)
  /\ (forall x, In x (map Q2R data_SMITS_WHITE) -> 1 < x < 1.0626)
  /\ (forall l x, In l [data_SMITS_CYAN; data_SMITS_MAGENTA; data_SMITS_YELLOW; data_SMITS_RED; data_SMITS_GREEN; data_SMITS_BLUE] -> In x (map Q2R l) -> - 0.02 < x < 1.0626).
Proof.
  assert (Z : Q2R 0 = 0) by (unfold Q2R; cbn; lra). assert (Y : Q2R 1 = 1) by (unfold Q2R; cbn; lra).
  repeat apply conj.
  - intros l x Hl Hx. rewrite <- Z, <- Y. apply (between_in _ _ l); [|exact Hx]. cbn [In] in Hl. intuition (subst; reflexivity).
  - intros x Hx. rewrite <- Y. apply (between_in _ _ data_SMITS_WHITE x); [|exact Hx]. reflexivity.
  - intros l x Hl Hx. assert (B : Q2R (- 0.02) < x < Q2R 1.0626) by (apply (between_in _ _ l); [|exact Hx]; cbn [In] in Hl; intuition (subst; reflexivity)).
    clear - B. q2r. lra.
Qed.
(* so a Smits spectrum is not a reflectance in [0, 1] everywhere *)
Theorem C75_smits_negative : exists x, In x (map Q2R data_SMITS_CYAN) /\ x < 0.
Proof. exists (Q2R (- 0.0076303759201984539)). split; [apply in_map; cbn [In data_SMITS_CYAN]; tauto|]. q2r. lra. Qed.

(* ---- C69 ---- *)
Definition basis_ok (t : Q * (Q * Q)) : bool :=
  let '(r, (g, b)) := t in (Qle_bool 0 r && Qle_bool 0 g && Qle_bool 0 b && Qle_bool 0.99999 (r + g + b) && Qle_bool (r + g + b) 1.00001)%bool.
Definition basis : list (Q * (Q * Q)) := combine data_basis_red (combine data_basis_green data_basis_blue).
Lemma basis_checked : forallb basis_ok basis = true. Proof. reflexivity. Qed.
Lemma basis_facts r g b : In (r, (g, b)) basis -> 0 <= Q2R r /\ 0 <= Q2R g /\ 0 <= Q2R b /\ 0.99999 <= Q2R r + Q2R g + Q2R b <= 1.00001.
Proof.
  intro H. pose proof basis_checked as C. rewrite forallb_forall in C. specialize (C _ H). unfold basis_ok in C. rewrite !andb_true_iff in C. destruct C as ((((A & B) & D) & E) & F).
  apply Qle_bool_iff, Qle_Rle in A, B, D, E, F. rewrite !Q2R_plus in E, F. replace (Q2R 0) with 0 in * by (unfold Q2R; cbn; lra). repeat apply conj; assumption.
Qed.
(* the reflectance at 380 + 5 k, from the tables alone *)
Definition refl (cr cg cb : R) (k : nat) : R :=
  cr * Q2R (nth k data_basis_red 0%Q) + cg * Q2R (nth k data_basis_green 0%Q) + cb * Q2R (nth k data_basis_blue 0%Q).
Lemma basis_nth k : (k < 81)%nat -> In (nth k data_basis_red 0%Q, (nth k data_basis_green 0%Q, nth k data_basis_blue 0%Q)) basis.
Proof.
  intro H. unfold basis. rewrite <- !combine_nth by reflexivity. apply nth_In. exact H.
Qed.
Lemma as_seq {A} (l : list A) d : l = map (fun k => nth k l d) (seq 0 (length l)).
Proof.
  apply nth_ext with (d := d) (d' := d); [rewrite map_length, seq_length; reflexivity|]. intros k Hk. rewrite (nth_indep (map (fun k => nth k l d) (seq 0 (length l))) d (nth 0 l d)) by (rewrite map_length, seq_length; exact Hk).
  rewrite (map_nth (fun k => nth k l d)), seq_nth by exact Hk. reflexivity.
Qed.
Lemma combine_maps {A B C} (f : A -> B) (g : A -> C) l : combine (map f l) (map g l) = map (fun k => (f k, g k)) l.
Proof. induction l as [|x l IH]; cbn; [reflexivity|]. rewrite IH. reflexivity. Qed.
Theorem C69_uplift_samples r g b : XConstOk K ->
  exists v, uplift_my (Rgb (Fin r) (Fin g) (Fin b)) = Ret v
    /\ v_shape v = shape 380 780 5 /\ v_wavelengths v = Fins (grid 380 5 81) /\ v_values v = Fins (map (refl r g b) (seq 0 81)).
Proof.
  intro OK. unfold uplift_my, my_basis. rewrite (proj2 (my_listed data_basis_red eq_refl)), (proj2 (my_listed data_basis_green eq_refl)), (proj2 (my_listed data_basis_blue eq_refl)). cbn [obind].
  unfold v_wavelengths, v_values. unfold uspd. cbn [v_samples]. rewrite !nms_fin, !vals_fin, even_nms, !even_vals. rewrite map_length. change (length data_basis_red) with 81%nat.
  match goal with |- context [vspd_new ?l] => set (L := l) end. set (w := map (refl r g b) (seq 0 81)). assert (Lw : length w = 81%nat) by (unfold w; rewrite map_length; apply seq_length).
  assert (E : L = FinSamps (combine (grid 380 5 (length w)) w)).
  { rewrite Lw. unfold L, w, grid. rewrite (as_seq data_basis_red 0%Q), (as_seq data_basis_green 0%Q), (as_seq data_basis_blue 0%Q).
    change (length data_basis_red) with 81%nat. change (length data_basis_green) with 81%nat. change (length data_basis_blue) with 81%nat.
    unfold Fins, FinSamps. rewrite !map_map, !combine_maps, !map_map. apply map_ext. intro k. unfold FinSamp, refl. cbn [fst snd rgb_r rgb_g rgb_b]. rewrite !x_mul, !x_add. leq. ring. }
  destruct (C48_grid_uniform 380 5 w OK ltac:(lia)) as (v & Ev & Sv). exists v. rewrite E. split; [exact Ev|]. split; [|].
  - rewrite Sv, Lw. unfold shape. leq. rewrite INR_IZR_INZ. cbn. ring.
  - assert (S : v_samples v = FinSamps (even 380 5 w)). { unfold vspd_new in Ev. destruct (calculate_shape _); try discriminate. cbn [obind] in Ev. injection Ev as <-. reflexivity. }
    rewrite S, nms_fin, vals_fin, even_nms, even_vals, Lw. split; reflexivity.
Qed.
Theorem C69_uplift_linear al be r g b r' g' b' k : refl (al * r + be * r') (al * g + be * g') (al * b + be * b') k = al * refl r g b k + be * refl r' g' b' k.
Proof. unfold refl. ring. Qed.
(* physical for every colour of the unit cube; white is white to 1e-5 *)
Theorem C69_uplift_physical r g b : XConstOk K -> 0 <= r <= 1 -> 0 <= g <= 1 -> 0 <= b <= 1 ->
  exists v vs, uplift_my (Rgb (Fin r) (Fin g) (Fin b)) = Ret v /\ v_values v = Fins vs /\ length vs = 81%nat /\ forall x, In x vs -> 0 <= x <= 1.00001.
Proof.
  intros OK HR HG HB. destruct (C69_uplift_samples r g b OK) as (v & E & _ & _ & V). exists v, (map (refl r g b) (seq 0 81)). split; [exact E|]. split; [exact V|]. split; [rewrite map_length; apply seq_length|].
  intros x Hx. apply in_map_iff in Hx. destruct Hx as (k & <- & Hk). apply in_seq in Hk. destruct (basis_facts _ _ _ (basis_nth k ltac:(lia))) as (A & B' & C & D & F). unfold refl. split; nra.
Qed.
Theorem C69_uplift_white : XConstOk K ->
  exists v vs, uplift_my (Rgb (Fin 1) (Fin 1) (Fin 1)) = Ret v /\ v_values v = Fins vs /\ length vs = 81%nat /\ forall x, In x vs -> Rabs (x - 1) <= 0.00001.
Proof.
  intro OK. destruct (C69_uplift_samples 1 1 1 OK) as (v & E & _ & _ & V). exists v, (map (refl 1 1 1) (seq 0 81)). split; [exact E|]. split; [exact V|]. split; [rewrite map_length; apply seq_length|].
  intros x Hx. apply in_map_iff in Hx. destruct Hx as (k & <- & Hk). apply in_seq in Hk. destruct (basis_facts _ _ _ (basis_nth k ltac:(lia))) as (A & B' & C & D & F). unfold refl. 
  assert (0.99999 = 1 - 0.00001) by (clear; q2r; lra). assert (1.00001 = 1 + 0.00001) by (clear; q2r; lra). apply Rabs_le. split; lra.
Qed.
(* additive in the colour, as spectra *)
Theorem C69_uplift_additive al be r g b r' g' b' : XConstOk K ->
  exists u v w, uplift_my (Rgb (Fin r) (Fin g) (Fin b)) = Ret u /\ uplift_my (Rgb (Fin r') (Fin g') (Fin b')) = Ret v
    /\ uplift_my (Rgb (Fin (al * r + be * r')) (Fin (al * g + be * g')) (Fin (al * b + be * b'))) = Ret w
    /\ v_wavelengths u = v_wavelengths w /\ v_wavelengths v = v_wavelengths w /\ v_shape u = v_shape w /\ v_shape v = v_shape w
    /\ length (v_values w) = 81%nat
    /\ forall k, (k < 81)%nat -> exists x y, nth_error (v_values u) k = Some (Fin x) /\ nth_error (v_values v) k = Some (Fin y) /\ nth_error (v_values w) k = Some (Fin (al * x + be * y)).
Proof.
  intro OK. destruct (C69_uplift_samples r g b OK) as (u & Ea & Sa & Wa & Va). destruct (C69_uplift_samples r' g' b' OK) as (v & Eb & Sb & Wb & Vb).
  destruct (C69_uplift_samples (al * r + be * r') (al * g + be * g') (al * b + be * b') OK) as (w & Ec & Sc & Wc & Vc).
  exists u, v, w. rewrite Wa, Wb, Wc, Sa, Sb, Sc, Va, Vb, Vc. repeat (split; [first [assumption | reflexivity | unfold Fins; rewrite !map_length, seq_length; reflexivity]|]).
  intros k Hk. exists (refl r g b k), (refl r' g' b' k). unfold Fins. rewrite !nth_error_map.
  replace (nth_error (seq 0 81) k) with (Some k) by (symmetry; rewrite (nth_error_nth' _ 0%nat) by (rewrite seq_length; exact Hk); rewrite seq_nth by exact Hk; reflexivity).
  cbn [option_map]. split; [reflexivity|]. split; [reflexivity|]. rewrite C69_uplift_linear. reflexivity.
Qed.
Example C69_example : refl 1 0 0 0 = 0.327457413827055 /\ refl 0 0 0 7 = 0.
Proof. unfold refl. cbn [nth data_basis_red data_basis_green data_basis_blue]. split; [|ring]. rewrite !Rmult_0_l. ring. Qed.
(* 560 nm, where the illuminants are normalised to 100 *)
Example C75_example : nth 52 (vals data_D65) 0 = 100 /\ nth 52 (vals data_D50) 0 = 100 /\ nth 52 (vals data_D55) 0 = 100.
Proof. unfold vals. cbn [map nth snd data_D65 data_D50 data_D55]. repeat split; clear; q2r; lra. Qed.
End P.
