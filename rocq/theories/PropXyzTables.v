(* C99: to_xyz in f64 under the tabulated illuminants *)
From Coq Require Import Reals ZArith QArith Qreals Lra Lia Bool List Sorting.Sorted.
From Flocq Require Import Core BinarySingleNaN.
From Verif Require Import Outcome RealOps MathModel ColorModel InterpModel VspdModel UpliftModel XReal SpecLin FloatInst FloatProofs ErrProofs CurveProofs VspdProofs PropShape SpragueProofs PropSprague AlignProofs PropAlign SpragueErrProofs PropInterp XyzProofs PropXyz PropDiffuser PropTables WhiteProofs PropWhite PropStab GridProofs PropXyzFloat.
From Verif Require Import DataIllum DataCmf.
Import ListNotations.
Open Scope R_scope.
Local Notation f64 := (binary_float 53 1024).

Lemma ofold_total {A B} (f : A -> B -> outcome A) l : (forall x, In x l -> forall a, exists b, f a x = Ret b) -> forall a, exists b, ofold f l a = Ret b.
Proof.
  induction l as [|x l IH]; intros H a; [exists a; reflexivity|]. destruct (H x ltac:(left; reflexivity) a) as (b & E). cbn [ofold]. rewrite E. cbn [obind]. apply IH. intros y I. apply H. right. exact I.
Qed.
Lemma new_total {T} {O : RealOps T} (ss : list (sample T)) d : (2 <= length ss)%nat -> exists iv, vspd_new ss = Ret (Vspd ss (SpdShape (s_nm (nth 0 ss d)) (s_nm (nth (length ss - 1) ss d)) iv)).
Proof.
  intro L. assert (OI : forall k, (k < length ss)%nat -> oindex ss k = Ret (nth k ss d)). { intros k H. unfold oindex. rewrite (nth_error_nth' ss d H). reflexivity. }
  unfold vspd_new, calculate_shape, calculate_interval. destruct (Nat.ltb_spec (length ss) 2); [lia|]. rewrite !OI by lia. cbn [obind].
  edestruct (ofold_total (fun same i => let! a := oindex ss i in let! b := oindex ss (i - 1) in Ret (same && rapprox (rsub (s_nm a) (s_nm b)) (rsub (s_nm (nth 1 ss d)) (s_nm (nth 0 ss d))) (rlitd 0.00000000001) 2)%bool) (seq 1 (length ss - 1 - 1))) with (a := true) as (b & E).
  { intros k I a. apply in_seq in I. rewrite !OI by lia. cbn [obind]. eexists. reflexivity. }
  exists (if b then Uniform (rsub (s_nm (nth 1 ss d)) (s_nm (nth 0 ss d))) else Varying).
  assert (F : first_opt ss = Some (nth 0 ss d)) by (destruct ss; [cbn in L; lia|reflexivity]).
  assert (G : last_opt ss = Some (nth (length ss - 1) ss d)).
  { apply last_opt_nth. destruct ss; [cbn in L; lia|discriminate]. }
  rewrite F, G. cbn [unwrap obind]. rewrite E. reflexivity.
Qed.

(* the exact samples a table stands for *)
Fixpoint zd (s h : Z) (l : list (QArith_base.Q * QArith_base.Q)) : list (Z * R) := match l with [] => [] | (_, v) :: l => (s, Q2R v) :: zd (s + h) h l end.
Lemma zd_length h l : forall s, length (zd s h l) = length l. Proof. induction l as [|[a b] l IH]; intro s; [reflexivity|]. cbn. rewrite IH. reflexivity. Qed.
Lemma zd_even h l : forall s, zr (zd s h l) = even (IZR s) (IZR h) (vals l).
Proof. induction l as [|[a b] l IH]; intro s; [reflexivity|]. unfold vals. cbn [zd map zr snd fst]. rewrite even_cons, <- plus_IZR. f_equal. apply IH. Qed.
Lemma zd_key h l : forall s k, (k < length l)%nat -> fst (nth k (zd s h l) (0%Z, 0%R)) = (s + Z.of_nat k * h)%Z.
Proof. induction l as [|[a b] l IH]; intros s k H; [cbn in H; lia|]. destruct k as [|k]; [cbn; lia|]. cbn [length] in H. change (nth (Datatypes.S k) (zd s h ((a, b) :: l)) (0%Z, 0%R)) with (nth k (zd (s + h) h l) (0%Z, 0%R)). rewrite IH by lia. lia. Qed.
Lemma zd_from h l : (0 < h)%Z -> forall s, Forall (fun p => (s <= fst p)%Z) (zd s h l) /\ zsorted (zd s h l).
Proof.
  intro H. induction l as [|[a b] l IH]; intro s; [split; constructor|]. destruct (IH (s + h)%Z) as (F & G). cbn [zd]. split.
  - constructor; [cbn; lia|]. eapply Forall_impl; [|exact F]. cbn. intros p P. lia.
  - constructor; [exact G|]. eapply Forall_impl; [|exact F]. cbn. intros p P. lia.
Qed.
Lemma zd_small h l : (0 < h)%Z -> forall s, (0 <= s)%Z -> (s + Z.of_nat (length l) * h <= 400000)%Z -> Forall small (map fst (zd s h l)).
Proof. intro H. induction l as [|[a b] l IH]; intros s P Q; [constructor|]. cbn [length] in Q. cbn [zd map fst]. constructor; [unfold small; lia|]. apply IH; lia. Qed.

Section F.
Context {K : XConst} (L : libm f64).
Notation ops := (b_ops 53 1024 L (b_of_Q 53 1024)).

Lemma lit_rel (q : QArith_base.Q) A : 0 <= Q2R q -> Q2R q + / 100 <= A <= 1000000 -> vrel A 1 (Q2R q) (b_of_Q 53 1024 q).
Proof.
  intros H0 HA. destruct u53 as [U0 U1]. pose proof (rnd_any 53 1024 (Q2R q)) as RR. rewrite (Rabs_pos_eq (Q2R q)) in RR by exact H0.
  assert (EE : bpow radix2 (SpecFloat.emin 53 1024 - 1) <= u * / 100).
  { apply Rle_trans with (bpow radix2 (-60)); [apply bpow_le; vm_compute; discriminate|]. change (bpow radix2 (-60)) with (/ IZR (2 ^ 60)). change u with (/ IZR (2 ^ 53)). change (IZR (2 ^ 60)) with 1152921504606846976. change (IZR (2 ^ 53)) with 9007199254740992. lra. }
  assert (D : Rabs (rnd (Q2R q) - Q2R q) <= u * A). { eapply Rle_trans; [exact RR|]. apply Rle_trans with (u * (Q2R q + / 100)); [rewrite Rmult_plus_distr_l; apply Rplus_le_compat_l; exact EE|apply Rmult_le_compat_l; lra]. }
  assert (B : Rabs (rnd (Q2R q)) < bpow radix2 1024).
  { apply Rlt_le_trans with (bpow radix2 40); [|apply bpow_le; lia]. change (bpow radix2 40) with 1099511627776. apply Rabs_le_inv in D. assert (u * A <= 1 * 1000000) by (apply Rmult_le_compat; lra). apply Rabs_def1; lra. }
  destruct (b_of_Q_correct 53 1024 q B) as (E & F & _). split; [exact F|]. split; [rewrite Rabs_pos_eq; lra|]. rewrite E, Rmult_1_l. exact D.
Qed.
Definition upto (b : QArith_base.Q) (l : list (QArith_base.Q * QArith_base.Q)) : bool := forallb (fun p => Qle_bool (snd p) b) l.
Lemma zd_rel h b A l : Q2R b + / 100 <= A <= 1000000 -> (0 < h)%Z -> upto b l = true -> forall s, (0 <= s)%Z -> (s + Z.of_nat (length l) * h <= 400000)%Z -> table_ok 0 s h l = true ->
  rel A 1 (zd s h l) (map (fun '(nm, v) => Sample (@rlitd _ ops nm) (@rlitd _ ops v)) l).
Proof.
  intros HA Hh. induction l as [|[nm v] l IH]; intros U s Hs He T; [constructor|]. unfold upto in U. cbn [forallb snd] in U. apply andb_true_iff in U. destruct U as (U1 & U2). cbn [table_ok] in T. rewrite !andb_true_iff in T. destruct T as ((T1 & T2) & T3). cbn [length] in He.
  cbn [zd map]. constructor; [|apply IH; try assumption; lia]. apply Qle_bool_iff, Qle_Rle in U1. apply Qle_bool_iff, Qle_Rle in T2. apply Qeq_bool_eq, Qeq_eqR in T1. unfold Q2R at 1 in T2. cbn in T2. split.
  - cbn [fst s_nm]. apply isZ_lit; [rewrite T1; unfold Q2R, inject_Z; cbn; lra|lia].
  - cbn [snd s_v]. apply lit_rel; lra.
Qed.
(* a table in f64 and exactly *)
Lemma table_tab (OK : XConstOk K) b A l s h n : Q2R b + / 100 <= A <= 1000000 -> (0 < h)%Z -> upto b l = true -> (0 <= s)%Z -> (s + Z.of_nat n * h <= 400000)%Z -> table_ok 0 s h l = true -> length l = n -> (6 <= n)%nat ->
  let e := (s + (Z.of_nat n - 1) * h)%Z in
  exists sp, @vspd_table _ ops l = Ret sp /\ tabulated A 1 (zd s h l) s e sp /\ vspd_table l = Ret (xspd (zd s h l) s e (Uniform (Fin (IZR h)))).
Proof.
  intros HA Hh U Hs He T LN N6 e. assert (R1 := zd_rel h b A l HA Hh U s Hs ltac:(lia) T). pose proof (rel_length _ _ _ _ R1) as RL. rewrite zd_length in RL.
  destruct (new_total (O := ops) (map (fun '(nm, v) => Sample (@rlitd _ ops nm) (@rlitd _ ops v)) l) (Sample (b_of_Z 53 1024 0) (b_of_Z 53 1024 0)) ltac:(lia)) as (iv & E).
  assert (NK : forall k, (k < n)%nat -> isZ (s + Z.of_nat k * h) (s_nm (nth k (map (fun '(nm, v) => Sample (@rlitd _ ops nm) (@rlitd _ ops v)) l) (Sample (b_of_Z 53 1024 0) (b_of_Z 53 1024 0))))).
  { intros k Hk. rewrite <- (zd_key h l s k) by lia. clear - R1 Hk LN. rewrite <- LN in Hk. rewrite <- (zd_length h l s) in Hk. revert k Hk. induction R1 as [|p q d ss (P & _) _ IH]; intros k Hk; [cbn in Hk; lia|]. destruct k as [|k]; [exact P|]. cbn [nth]. apply IH. cbn in Hk. lia. }
  eexists. split; [exact E|]. split.
  - split; [exact R1|]. split; [apply zd_from; assumption|]. split; [rewrite zd_length; lia|]. split; [apply zd_small; lia|]. cbn [v_start v_end v_shape sh_start sh_end]. rewrite RL.
    split; [replace s with (s + Z.of_nat 0 * h)%Z at 1 by lia; apply NK; lia|]. split; [unfold e; replace (Z.of_nat n - 1)%Z with (Z.of_nat (length l - 1)) by lia; apply NK; lia|].
    unfold first_key, last_key. rewrite zd_length, !zd_key by lia. split; [lia|]. unfold e. lia.
  - destruct (table_wf OK l 0 s e h n T LN ltac:(lia) eq_refl) as (v & vs & E1 & _ & _ & _ & _ & _ & _ & Ev & Evs). rewrite E1, Ev, Evs. unfold xspd, uspd. rewrite zd_even. reflexivity.
Qed.
End F.

Lemma le_div a b c : 0 < c -> a * c <= b -> a <= b / c.
Proof. intros C H. apply (Rmult_le_reg_r c); [exact C|]. unfold Rdiv. rewrite Rmult_assoc, Rinv_l, Rmult_1_r by lra. exact H. Qed.

Section G.
Context {K : XConst} (L : libm f64) (PI : powi5_ok 53 1024 (l_powi L)).
Notation ops := (b_ops 53 1024 L (b_of_Q 53 1024)).

Definition heavy (m : positive) (l : list (QArith_base.Q * QArith_base.Q)) : bool :=
  let i := zint (PropWhite.zs m l) in let y := zcmf data_y_bar in let k := (10368 * (625 * (209 * Zpos m) * 1000000000000))%Z in
  Z.leb k (zdot i y) && Z.leb k (5 * zdot (zevery5 i) (zevery5 y)).

Lemma norm_val dbg fuel v y li ly : source v li -> source y ly -> (420 <= fuel)%nat ->
  normaliser dbg fuel v y (shape 360 780 1) 1 = Ret (Fin (1 * dotp li ly)) /\ normaliser dbg fuel v y (shape 360 780 5) 5 = Ret (Fin (5 * dotp (every5 li) (every5 ly))).
Proof.
  intros Sv Sy F. pose proof (source_length _ _ Sv) as L1. pose proof (source_length _ _ Sy) as L2. destruct Sv as (s & e & h & w & iv & -> & A & E). destruct Sy as (s' & e' & h' & w' & iv' & -> & A' & E').
  unfold normaliser, weight. rewrite !align_uspd by (try assumption; rewrite steps1; exact F). cbn [obind]. rewrite <- E, <- E'. rewrite !align1, !align5 by (try assumption; lia). cbn [obind]. rewrite !uspd_vals, !sum2_fin. split; reflexivity.
Qed.

Lemma cmf_ok l : In l [data_x_bar; data_y_bar; data_z_bar] -> table_ok 0 360 1 l = true /\ upto 1.79 l = true /\ length l = 471%nat.
Proof. intros [<-|[<-|[<-|[]]]]; repeat split; reflexivity. Qed.
Lemma builtin_one (OK : XConstOk K) dbg fuel m l n v cm : table_ok 0 300 5 l = true -> upto 119 l = true -> length l = n -> (97 <= n <= 200)%nat -> exactly m (map snd l) = true -> heavy m l = true ->
  @vspd_table _ ops l = Ret v -> @cie_1931_2_degree _ ops = Ret cm -> (420 <= fuel)%nat ->
  exists v' cm', vspd_table l = Ret v' /\ cie_1931_2_degree = Ret cm' /\
  (forall M spd d s e i w, mid M -> tabulated M 1 d s e spd -> overlaps 360 780 s e -> v_interval spd = Uniform w -> isZ i w -> (1 <= i <= 1000000)%Z -> i <> 10%Z ->
    exists p q, @vspd_to_xyz _ ops dbg fuel spd v cm = Ret p /\ vspd_to_xyz dbg fuel (xspd d s e (Uniform (Fin (IZR i)))) v' cm' = Ret q /\ close3 (M / 1000000) q p).
Proof.
  intros T U LN N X H Ev Ec F. destruct u53 as [U0 U1].
  assert (QC : Q2R 1.79 + / 100 <= 1.8 <= 1000000) by (clear; q2r; lra). assert (QI : Q2R 119 + / 100 <= 120 <= 1000000) by (clear; q2r; lra).
  assert (MI : mid 120) by (unfold mid; change (bpow radix2 (-200)) with (/ IZR (2 ^ 200)); split; [apply Rle_trans with (/ 1); [apply Rinv_le; [lra|apply IZR_le; discriminate]|lra]|apply Rle_trans with (bpow radix2 10); [change (bpow radix2 10) with 1024; lra|apply bpow_le; lia]]).
  assert (MC : mid 1.8) by (unfold mid; change (bpow radix2 (-200)) with (/ IZR (2 ^ 200)); split; [apply Rle_trans with (/ 1); [apply Rinv_le; [lra|apply IZR_le; discriminate]|clear; q2r; lra]|apply Rle_trans with (bpow radix2 10); [change (bpow radix2 10) with 1024; clear; q2r; lra|apply bpow_le; lia]]).
  destruct (table_tab L OK 119 120 l 300 5 n QI ltac:(lia) U ltac:(lia) ltac:(lia) T LN ltac:(lia)) as (v1 & E1 & TI & EI). rewrite Ev in E1. injection E1 as <-.
  assert (G : forall b, In b [data_x_bar; data_y_bar; data_z_bar] -> exists sp, @vspd_table _ ops b = Ret sp /\ tabulated 1.8 1 (zd 360 1 b) 360 830 sp /\ vspd_table b = Ret (xspd (zd 360 1 b) 360 830 (Uniform (Fin 1)))).
  { intros b Ib. destruct (cmf_ok b Ib) as (B1 & B2 & B3). exact (table_tab L OK 1.79 1.8 b 360 1 471 QC ltac:(lia) B2 ltac:(lia) ltac:(lia) B1 B3 ltac:(lia)). }
  destruct (G data_x_bar ltac:(cbn; tauto)) as (cx & Cx & Tx & Xx). destruct (G data_y_bar ltac:(cbn; tauto)) as (cy & Cy & Ty & Xy). destruct (G data_z_bar ltac:(cbn; tauto)) as (cz & Cz & Tz & Xz). clear G.
  assert (Hcm : cm = Cmf cx cy cz). { unfold cie_1931_2_degree in Ec. rewrite Cx in Ec. cbn [obind] in Ec. rewrite Cy in Ec. cbn [obind] in Ec. rewrite Cz in Ec. cbn [obind] in Ec. injection Ec as <-. reflexivity. }
  subst cm. eexists _, _. split; [exact EI|]. split; [unfold cie_1931_2_degree; rewrite Xx; cbn [obind]; rewrite Xy; cbn [obind]; rewrite Xz; cbn [obind]; reflexivity|].
  intros M spd d s e i w MM TS OV EV IV II I10. pose proof (mid_pos M MM) as M0.
  set (e' := (300 + (Z.of_nat n - 1) * 5)%Z) in *. assert (HE : (780 <= e')%Z) by (unfold e'; lia).
  assert (SI : source (xspd (zd 300 5 l) 300 e' (Uniform (Fin 5))) (map (fun z => IZR z / (625 * (209 * IZR (Zpos m)))) (zint (PropWhite.zs m l)))).
  { destruct (ill_source m l (IZR e') n X) as (v2 & E2 & S2); [|apply IZR_le; exact HE|lia|rewrite EI in E2; injection E2 as <-; exact S2].
    replace 0 with (Q2R 0) by (unfold Q2R; cbn; lra). apply (table_wf OK l 0 300 e' 5 n T LN); [lia|reflexivity]. }
  assert (SY : source (xspd (zd 360 1 data_y_bar) 360 830 (Uniform (Fin 1))) (map (fun z => IZR z / IZR 1000000000000) (zcmf data_y_bar))).
  { destruct (cmf_source OK data_y_bar ltac:(cbn; tauto)) as (v2 & E2 & S2). rewrite Xy in E2. injection E2 as <-. exact S2. }
  destruct (norm_val dbg fuel _ _ _ _ SI SY F) as (N1 & N5). rewrite !every5_scaled in N5.
  assert (Pm : 0 < IZR (Z.pos m)) by (apply IZR_lt; reflexivity). set (k := 625 * (209 * IZR (Z.pos m))) in *. assert (Pk : 0 < k) by (unfold k; lra).
  rewrite zdot_dotp in N1, N5 by lra. unfold heavy in H. apply andb_true_iff in H. destruct H as (H1 & H5). apply Z.leb_le, IZR_le in H1, H5. rewrite !mult_IZR in H1, H5. fold k in H1, H5.
  assert (Pkk : 0 < k * IZR 1000000000000) by (apply Rmult_lt_0_compat; lra).
  assert (Q1 : 10368 <= 1 * (IZR (zdot (zint (PropWhite.zs m l)) (zcmf data_y_bar)) / (k * IZR 1000000000000))). { rewrite Rmult_1_l. apply le_div; [exact Pkk|exact H1]. }
  assert (Q5 : 10368 <= 5 * (IZR (zdot (zevery5 (zint (PropWhite.zs m l))) (zevery5 (zcmf data_y_bar))) / (k * IZR 1000000000000))). { unfold Rdiv. rewrite <- Rmult_assoc. apply le_div; [exact Pkk|rewrite <- mult_IZR; exact H5]. }
  assert (FIN : exists p q, @vspd_to_xyz _ ops dbg fuel spd v (Cmf cx cy cz) = Ret p /\ vspd_to_xyz dbg fuel (xspd d s e (Uniform (Fin (IZR i)))) (xspd (zd 300 5 l) 300 e' (Uniform (Fin 5))) (Cmf (xspd (zd 360 1 data_x_bar) 360 830 (Uniform (Fin 1))) (xspd (zd 360 1 data_y_bar) 360 830 (Uniform (Fin 1))) (xspd (zd 360 1 data_z_bar) 360 830 (Uniform (Fin 1)))) = Ret q /\ close3 (budget (/ 48) M) q p).
  { assert (OO : overlaps 360 780 360 830) by (unfold overlaps; lia). assert (OI : overlaps 360 780 300 e') by (unfold overlaps; lia).
    assert (BB : forall S0, 10368 <= S0 -> 0 < S0 /\ 120 * 1.8 <= / 48 * S0 /\ 0 <= / 48 <= 1000000) by (clear; intros; q2r; lra).
    destruct (Z.eqb_spec i 5) as [E5|N5'].
    - destruct (BB _ Q5) as (b1 & b2 & b3). eapply (C99_to_xyz L PI dbg fuel M 120 1.8 (/ 48) _ spd v cx cy cz d _ _ _ _ s e _ _ (Uniform (Fin 5)) _ _ _ _ _ (Uniform (Fin 1)) _ _ _ i w); try eassumption. subst i. exact N5.
    - destruct (BB _ Q1) as (b1 & b2 & b3). eapply (C99_to_xyz L PI dbg fuel M 120 1.8 (/ 48) _ spd v cx cy cz d _ _ _ _ s e _ _ (Uniform (Fin 5)) _ _ _ _ _ (Uniform (Fin 1)) _ _ _ i w); try eassumption. destruct (Z.eqb_spec i 5); [contradiction|exact N1]. }
  destruct FIN as (p & q & P & Q & R3). exists p, q. split; [exact P|]. split; [exact Q|].
  assert (BU : budget (/ 48) M <= M / 1000000). { unfold budget. assert (UM : u * M <= / 9000000000000000 * M) by (apply Rmult_le_compat_r; lra). clear - UM M0. match goal with |- ?c * _ <= _ => apply Rle_trans with (7300000000 * (u * M)) end; [apply Rmult_le_compat_r; [apply Rmult_le_pos; [apply bpow_ge_0|lra]|q2r; lra]|lra]. }
  clear - R3 BU. destruct R3 as (A & B & C). assert (W : forall x r, close (budget (/ 48) M) x r -> close (M / 1000000) x r) by (intros x r (e & E1 & E2 & E3); exists e; split; [exact E1|]; split; [exact E2|lra]). exact (conj (W _ _ A) (conj (W _ _ B) (W _ _ C))).
Qed.

(* every spectrum of bounded size, every built-in illuminant, the built-in colour matching functions *)
Theorem C99_builtin dbg fuel o o' : XConstOk K -> (420 <= fuel)%nat -> In (o, o') [(@spd_D50 _ ops, spd_D50); (@spd_D55 _ ops, spd_D55); (@spd_D60 _ ops, spd_D60); (@spd_D65 _ ops, spd_D65)] ->
  exists v cm v' cm', o = Ret v /\ @cie_1931_2_degree _ ops = Ret cm /\ o' = Ret v' /\ cie_1931_2_degree = Ret cm' /\
  forall M spd d s e i w, mid M -> tabulated M 1 d s e spd -> overlaps 360 780 s e -> v_interval spd = Uniform w -> isZ i w -> (1 <= i <= 1000000)%Z -> i <> 10%Z ->
    exists p q, @vspd_to_xyz _ ops dbg fuel spd v cm = Ret p /\ vspd_to_xyz dbg fuel (xspd d s e (Uniform (Fin (IZR i)))) v' cm' = Ret q /\ close3 (M / 1000000) q p.
Proof.
  intros OK F HI.
  assert (QC : Q2R 1.79 + / 100 <= 1.8 <= 1000000) by (clear; q2r; lra). assert (QI : Q2R 119 + / 100 <= 120 <= 1000000) by (clear; q2r; lra).
  assert (G : forall b, In b [data_x_bar; data_y_bar; data_z_bar] -> exists sp, @vspd_table _ ops b = Ret sp).
  { intros b Ib. destruct (cmf_ok b Ib) as (B1 & B2 & B3). destruct (table_tab L OK 1.79 1.8 b 360 1 471 QC ltac:(lia) B2 ltac:(lia) ltac:(lia) B1 B3 ltac:(lia)) as (sp & E & _). exists sp. exact E. }
  destruct (G data_x_bar ltac:(cbn; tauto)) as (cx & Cx). destruct (G data_y_bar ltac:(cbn; tauto)) as (cy & Cy). destruct (G data_z_bar ltac:(cbn; tauto)) as (cz & Cz). clear G.
  assert (Ec : @cie_1931_2_degree _ ops = Ret (Cmf cx cy cz)) by (unfold cie_1931_2_degree; rewrite Cx; cbn [obind]; rewrite Cy; cbn [obind]; rewrite Cz; reflexivity).
  assert (W : forall m l n, table_ok 0 300 5 l = true -> upto 119 l = true -> length l = n -> (97 <= n <= 200)%nat -> exactly m (map snd l) = true -> heavy m l = true -> (o, o') = (@vspd_table _ ops l, vspd_table l) ->
    exists v cm v' cm', o = Ret v /\ @cie_1931_2_degree _ ops = Ret cm /\ o' = Ret v' /\ cie_1931_2_degree = Ret cm' /\
  forall M spd d s e i w, mid M -> tabulated M 1 d s e spd -> overlaps 360 780 s e -> v_interval spd = Uniform w -> isZ i w -> (1 <= i <= 1000000)%Z -> i <> 10%Z ->
    exists p q, @vspd_to_xyz _ ops dbg fuel spd v cm = Ret p /\ vspd_to_xyz dbg fuel (xspd d s e (Uniform (Fin (IZR i)))) v' cm' = Ret q /\ close3 (M / 1000000) q p).
  { intros m l n T U LN N X H E. assert (E1 : o = @vspd_table _ ops l) by exact (f_equal fst E). assert (E2 : o' = vspd_table l) by exact (f_equal snd E). clear E HI. subst o o'.
    destruct (table_tab L OK 119 120 l 300 5 n QI ltac:(lia) U ltac:(lia) ltac:(lia) T LN ltac:(lia)) as (v & E1 & _ & _). destruct (builtin_one OK dbg fuel m l n v _ T U LN N X H E1 Ec F) as (v' & cm' & B1 & B2 & B3).
    exists v, (Cmf cx cy cz), v', cm'. exact (conj E1 (conj Ec (conj B1 (conj B2 B3)))). }
  cbn [In] in HI. destruct HI as [E|[E|[E|[E|[]]]]]; symmetry in E.
  - apply (W 1000%positive data_D50 97%nat); try reflexivity; [lia|exact E].
  - apply (W 1000%positive data_D55 97%nat); try reflexivity; [lia|exact E].
  - apply (W 1000000000000000%positive data_D60 107%nat); try reflexivity; [lia|exact E].
  - apply (W 10000%positive data_D65 97%nat); try reflexivity; [lia|exact E].
Qed.

(* a white sample every 5 nm under D65 comes out with Y = 100 to a millionth *)
Definition white5 : vspd f64 := Vspd (map (fun k => Sample (b_of_Z 53 1024 (360 + Z.of_nat k * 5)) (b_of_Z 53 1024 1)) (seq 0 85)) (SpdShape (b_of_Z 53 1024 360) (b_of_Z 53 1024 780) (Uniform (b_of_Z 53 1024 5))).
Definition d5 : list (Z * R) := zd 360 5 (repeat (0, 1)%Q 85).
Lemma d5_is : d5 = map (fun k => ((360 + Z.of_nat k * 5)%Z, Q2R 1)) (seq 0 85). Proof. reflexivity. Qed.
Lemma white5_tab : tabulated 1 1 d5 360 780 white5.
Proof.
  destruct u53 as [U0 U1]. assert (ISZ : forall z, (Z.abs z <= 1000000000)%Z -> isZ z (b_of_Z 53 1024 z)) by exact isZ_of.
  split; [|split; [apply zd_from; lia|split; [unfold d5; rewrite zd_length, repeat_length; lia|split; [apply zd_small; rewrite ?repeat_length; lia|split; [apply ISZ; lia|split; [apply ISZ; lia|split; [cbn; lia|unfold last_key, d5; rewrite zd_length, repeat_length, zd_key by (rewrite repeat_length; lia); lia]]]]]]].
  unfold rel. rewrite d5_is. unfold white5. cbn [v_samples]. assert (G : forall l, (forall k, In k l -> (k < 85)%nat) -> Forall2 (near 1 1) (map (fun k => ((360 + Z.of_nat k * 5)%Z, Q2R 1)) l) (map (fun k => Sample (b_of_Z 53 1024 (360 + Z.of_nat k * 5)) (b_of_Z 53 1024 1)) l)).
  { induction l as [|k l IH]; intro H; [constructor|]. pose proof (H k ltac:(left; reflexivity)). cbn [map]. constructor; [|apply IH; intros j J; apply H; right; exact J]. cbn [fst snd s_nm s_v]; split; [apply ISZ; cbn [fst]; clear -H0; lia|]; cbn [snd s_v].
    destruct (ISZ 1%Z ltac:(lia)) as (F1 & E1). split; [exact F1|]. rewrite E1. replace (Q2R 1) with 1 by (unfold Q2R; cbn; lra). rewrite Rabs_R1, Rminus_diag_eq, Rabs_R0 by reflexivity. split; lra. }
  apply G. intros k I. apply in_seq in I. lia.
Qed.
Example C99_example : XConstOk K -> exists v cm p, @spd_D65 _ ops = Ret v /\ @cie_1931_2_degree _ ops = Ret cm /\ @vspd_to_xyz _ ops true 420 white5 v cm = Ret p /\ is_finite (xyz_y p) = true /\ Rabs (B2R (xyz_y p) - 100) <= / 1000000.
Proof.
  intro OK. destruct (C99_builtin true 420 (@spd_D65 _ ops) spd_D65 OK ltac:(lia) ltac:(cbn [In]; tauto)) as (v & cm & v' & cm' & E1 & E2 & E3 & E4 & H).
  assert (M1 : mid 1). { split; [change 1 with (bpow radix2 0); apply bpow_le; lia|change 1 with (bpow radix2 0); apply bpow_le; lia]. }
  destruct (H 1 white5 d5 360%Z 780%Z 5%Z (b_of_Z 53 1024 5) M1 white5_tab ltac:(unfold overlaps; lia) eq_refl (isZ_of 5 ltac:(lia)) ltac:(lia) ltac:(lia)) as (p & q & P & Q & (_ & (y & Ey & Fy & By) & _)).
  exists v, cm, p. split; [exact E1|]. split; [exact E2|]. split; [exact P|]. split; [exact Fy|].
  destruct (C77_white_points OK) as (cm2 & _ & _ & _ & d65 & F1 & _ & _ & _ & F5 & _ & _ & _ & (a & b & _ & W)). rewrite E3 in F5. injection F5 as <-. rewrite E4 in F1. injection F1 as <-.
  assert (X5 : xspd d5 360 780 (Uniform (Fin 5)) = uspd 360 780 5 (repeat 1 85) (Uniform (Fin 5))).
  { unfold xspd, uspd, d5. rewrite zd_even. replace (vals (repeat (0%Q, 1%Q) 85)) with (repeat 1 85); [reflexivity|]. unfold vals. clear. generalize 85%nat. intro m. induction m as [|n IH]; [reflexivity|]. cbn [repeat map snd]. rewrite <- IH. f_equal. unfold Q2R. cbn. field. }
  destruct (W true 420%nat (uspd 360 780 5 (repeat 1 85) (Uniform (Fin 5))) ltac:(lia)) as (p2 & x2 & y2 & W1 & W2 & _).
  { apply diffuser_5; [lia|]. apply on_own_grid; rewrite ?steps5, ?repeat_length; try lra; try lia. apply count5. }
  rewrite X5, W1 in Q. injection Q as <-. rewrite W2 in Ey. injection Ey as <-. lra.
Qed.
End G.
