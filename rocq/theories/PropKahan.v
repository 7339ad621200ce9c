(* C80: accuracy of the two fast spectrum-to-XYZ conversions of spd.rs in f32 *)
From Coq Require Import Reals ZArith QArith Qreals Lra Lia Bool List.
From Flocq Require Import Core BinarySingleNaN.
From Verif Require Import Outcome RealOps MathModel ColorModel SpdModel XReal FloatInst FloatProofs ErrProofs KahanProofs.
Import ListNotations.
Open Scope R_scope.

(* exact weighted sum and the same of the absolute values *)
Fixpoint wsum (v w : list f32) : R := match v, w with a :: v', b :: w' => B2R a * B2R b + wsum v' w' | _, _ => 0 end.
Fixpoint wabs (v w : list f32) : R := match v, w with a :: v', b :: w' => Rabs (B2R a * B2R b) + wabs v' w' | _, _ => 0 end.
(* [r] is the weighted sum up to [c] unit roundoffs of the absolute weighted sum *)
Definition sums_to (c t : R) (r : f32) (v w : list f32) : Prop :=
  is_finite r = true -> Rabs (B2R r - wsum v w) <= c * bpow radix2 (-24) * wabs v w + t * bpow radix2 (-150).

Notation prods v w := (map (fun '(a, b) => Bmult mode_NE a b) (combine v w)).

Lemma wabs_pos v : forall w, 0 <= wabs v w.
Proof. induction v as [|a v IH]; intros [|b w]; cbn; try lra. pose proof (Rabs_pos (B2R a * B2R b)). pose proof (IH w). lra. Qed.
Lemma prods_err v : forall w, length w = length v -> Forall (fun p : f32 => is_finite p = true) (prods v w) ->
  Rabs (rsum (map B2R (prods v w)) - wsum v w) <= bpow radix2 (-24) * wabs v w + INR (length v) * bpow radix2 (-150)
  /\ asum (map B2R (prods v w)) <= (1 + bpow radix2 (-24)) * wabs v w + INR (length v) * bpow radix2 (-150).
Proof.
  induction v as [|a v IH]; intros [|b w] H F; try discriminate.
  - cbn. unfold asum. cbn. unfold Rminus. rewrite Ropp_0, Rplus_0_r, Rabs_R0. lra.
  - injection H as H. cbn [combine map] in *. inversion F as [|? ? F1 F2]; subst. destruct (IH w H F2) as [E1 E2].
    destruct (mul_err 24 128 a b F1) as (_ & _ & E). change (2 - 128 - 24)%Z with (-150)%Z in E. change (- (24))%Z with (-24)%Z in E.
    unfold asum in *. cbn [map rsum wsum wabs]. change (length (a :: v)) with (Datatypes.S (length v)). rewrite S_INR.
    set (p := B2R (Bmult mode_NE a b)) in *. set (q := B2R a * B2R b) in *. split.
    + replace (p + rsum (map B2R (prods v w)) - (q + wsum v w)) with ((p - q) + (rsum (map B2R (prods v w)) - wsum v w)) by ring.
      eapply Rle_trans; [apply Rabs_triang|]. lra.
    + assert (Rabs p <= Rabs q + Rabs (p - q)) by (replace p with (q + (p - q)) at 1 by ring; apply Rabs_triang). lra.
Qed.

(* the order of the additions on eight lanes, for any number type *)
Lemma avx_tree {T : Type} {O : RealOps T} (v0 v1 v2 v3 v4 v5 v6 v7 v8 v9 v10 v11 v12 v13 v14 v15 v16 v17 v18 v19 v20 v21 v22 v23 v24 v25 v26 v27 v28 v29 v30 v31 v32 v33 v34 v35 v36 v37 v38 v39 w0 w1 w2 w3 w4 w5 w6 w7 w8 w9 w10 w11 w12 w13 w14 w15 w16 w17 w18 w19 w20 w21 w22 w23 w24 w25 w26 w27 w28 w29 w30 w31 w32 w33 w34 w35 w36 w37 w38 w39 : T) :
  avx_channel [w0; w1; w2; w3; w4; w5; w6; w7; w8; w9; w10; w11; w12; w13; w14; w15; w16; w17; w18; w19; w20; w21; w22; w23; w24; w25; w26; w27; w28; w29; w30; w31; w32; w33; w34; w35; w36; w37; w38; w39] [v0; v1; v2; v3; v4; v5; v6; v7; v8; v9; v10; v11; v12; v13; v14; v15; v16; v17; v18; v19; v20; v21; v22; v23; v24; v25; v26; v27; v28; v29; v30; v31; v32; v33; v34; v35; v36; v37; v38; v39] = ((((v3 * w3 + v11 * w11 + (v19 * w19 + v27 * w27) + v35 * w35) + (v7 * w7 + v15 * w15 + (v23 * w23 + v31 * w31) + v39 * w39)) + ((v2 * w2 + v10 * w10 + (v18 * w18 + v26 * w26) + v34 * w34) + (v6 * w6 + v14 * w14 + (v22 * w22 + v30 * w30) + v38 * w38))) + (((v1 * w1 + v9 * w9 + (v17 * w17 + v25 * w25) + v33 * w33) + (v5 * w5 + v13 * w13 + (v21 * w21 + v29 * w29) + v37 * w37)) + ((v0 * w0 + v8 * w8 + (v16 * w16 + v24 * w24) + v32 * w32) + (v4 * w4 + v12 * w12 + (v20 * w20 + v28 * w28) + v36 * w36))))%num.
Proof. reflexivity. Qed.
Section S.
Context (L : libm f32).

Local Instance O32i : RealOps f32 := f32_ops L.

(* the three channels are independent *)
Lemma kahan_channels (ts : list (xyz f32)) : forall a1 a2 a3 c1 c2 c3 : f32,
  fold_left (@kahan_step _ O32i) ts (Xyz a1 a2 a3, Xyz c1 c2 c3)
  = (let r1 := fold_left (kstep 24 128) (map xyz_x ts) (a1, c1) in let r2 := fold_left (kstep 24 128) (map xyz_y ts) (a2, c2) in
     let r3 := fold_left (kstep 24 128) (map xyz_z ts) (a3, c3) in
     (Xyz (fst r1) (fst r2) (fst r3), Xyz (snd r1) (snd r2) (snd r3))).
Proof.
  induction ts as [|[x y z] ts IH]; intros; [reflexivity|]. cbn [map fold_left]. exact (IH _ _ _ _ _ _).
Qed.
Lemma scalar_terms (v : list f32) : forall wx wy wz, length wx = length v -> length wy = length v -> length wz = length v ->
  let ts := map (fun '((s, x), (y, z)) => Xyz (@rmul _ O32i s x) (@rmul _ O32i s y) (@rmul _ O32i s z)) (combine (combine v wx) (combine wy wz)) in
  map xyz_x ts = prods v wx /\ map xyz_y ts = prods v wy /\ map xyz_z ts = prods v wz.
Proof.
  induction v as [|s v IH]; intros [|x wx] [|y wy] [|z wz] Hx Hy Hz; try discriminate; [repeat split|].
  injection Hx as Hx. injection Hy as Hy. injection Hz as Hz. destruct (IH wx wy wz Hx Hy Hz) as (A & B & C).
  cbn [combine map]. cbn [combine map] in A, B, C. rewrite A, B, C. repeat split.
Qed.
Lemma zero32 : @rlitd _ O32i 0.0 = B754_zero false.
Proof. reflexivity. Qed.

Lemma kfin_all l : forall a c : f32, is_finite (fst (fold_left (kstep 24 128) l (a, c))) = true -> Forall (fun p : f32 => is_finite p = true) l.
Proof.
  induction l as [|p l IH]; intros a c F; [constructor|]. cbn [fold_left] in F. constructor; [|apply (IH _ _ F)].
  unfold kstep at 2 in F. apply (kfin 24 128) in F. apply (add_err 24 128) in F. destruct F as (_ & F & _). apply (sub_err 24 128) in F. apply F.
Qed.
Lemma channel_err v w : length w = length v -> (length v <= 2 ^ 20)%nat ->
  sums_to 7 (2 * INR (length v)) (fst (fold_left (kstep 24 128) (prods v w) (B754_zero false, B754_zero false))) v w.
Proof.
  intros H N F. pose proof (kfin_all _ _ _ F) as A. destruct (prods_err v w H A) as [E1 E2].
  assert (Ln : (length (prods v w) <= 2 ^ 20)%nat) by (rewrite map_length, combine_length; lia).
  pose proof (kahan_err 24 128 (prods v w) ltac:(lia) Ln F) as E. change (- (24))%Z with (-24)%Z in E.
  set (r := B2R _) in *. pose proof (wabs_pos v w) as W. pose proof (pos_INR (length v)) as IL.
  assert (U : 0 < bpow radix2 (-24) <= / 1000) by (split; [apply bpow_gt_0|cbn; lra]). pose proof (bpow_gt_0 radix2 (-150)) as T.
  set (q := bpow radix2 (-24)) in *. set (h := bpow radix2 (-150)) in *. clearbody q h.
  replace (r - wsum v w) with ((r - rsum (map B2R (prods v w))) + (rsum (map B2R (prods v w)) - wsum v w)) by ring.
  eapply Rle_trans; [apply Rabs_triang|]. set (S := wabs v w) in *. set (A0 := asum _) in *. set (n := INR (length v)) in *.
  assert (X : 5 * q * A0 <= 5 * q * ((1 + q) * S + n * h)) by (apply Rmult_le_compat_l; lra).
  apply Rle_trans with (5 * q * ((1 + q) * S + n * h) + (q * S + n * h)); [lra|].
  assert (Y : 5 * (q * (q * S)) <= q * S). { assert (0 <= q * S) by (apply Rmult_le_pos; lra). assert (q * (q * S) <= / 1000 * (q * S)) by (apply Rmult_le_compat_r; lra). lra. }
  assert (Z : 5 * q * (n * h) <= n * h). { assert (0 <= n * h) by (apply Rmult_le_pos; lra). assert (q * (n * h) <= / 1000 * (n * h)) by (apply Rmult_le_compat_r; lra). lra. }
  replace (5 * q * ((1 + q) * S + n * h)) with (5 * (q * S) + 5 * (q * (q * S)) + 5 * q * (n * h)) by ring. lra.
Qed.

(* For any tables of the same length as the spectrum (40 in the source): each channel that does not
   overflow is within 7 units roundoff of the exact sum, however many terms there are *)
Theorem C80_scalar_accurate (wx wy wz v : list f32) : length wx = length v -> length wy = length v -> length wz = length v ->
  (length v <= 2 ^ 20)%nat ->
  let r := @spd_to_xyz_scalar _ O32i wx wy wz v in
  sums_to 7 (2 * INR (length v)) (xyz_x r) v wx /\ sums_to 7 (2 * INR (length v)) (xyz_y r) v wy /\ sums_to 7 (2 * INR (length v)) (xyz_z r) v wz.
Proof.
  intros Hx Hy Hz N. destruct (scalar_terms v wx wy wz Hx Hy Hz) as (A & B & C). unfold spd_to_xyz_scalar. cbv zeta in A, B, C |- *.
  rewrite !zero32. set (ts := map (fun '((s, x), (y, z)) => _) _) in *. rewrite kahan_channels. cbv zeta. cbn [fst xyz_x xyz_y xyz_z]. rewrite A, B, C.
  repeat split; apply channel_err; assumption.
Qed.

Lemma list40 {A : Type} (l : list A) : length l = 40%nat -> exists a0 a1 a2 a3 a4 a5 a6 a7 a8 a9 a10 a11 a12 a13 a14 a15 a16 a17 a18 a19 a20 a21 a22 a23 a24 a25 a26 a27 a28 a29 a30 a31 a32 a33 a34 a35 a36 a37 a38 a39,
  l = [a0; a1; a2; a3; a4; a5; a6; a7; a8; a9; a10; a11; a12; a13; a14; a15; a16; a17; a18; a19; a20; a21; a22; a23; a24; a25; a26; a27; a28; a29; a30; a31; a32; a33; a34; a35; a36; a37; a38; a39].
Proof.
  intro H. do 40 (destruct l as [|? l]; [discriminate|]). destruct l; [|discriminate]. repeat eexists.
Qed.
Lemma ap_mul32 (x y : f32) : is_finite (@rmul _ O32i x y) = true -> ap 24 128 1 1 (@rmul _ O32i x y) (B2R x * B2R y) (Rabs (B2R x * B2R y)).
Proof. apply (ap_mul 24 128). Qed.
Lemma ap_add32 k m m' (r r' : f32) e e' A A' : 0 <= m -> 0 <= m' -> is_finite (@radd _ O32i r r') = true ->
  (is_finite r = true -> ap 24 128 k m r e A) -> (is_finite r' = true -> ap 24 128 k m' r' e' A') -> ap 24 128 (S k) (m + m') (@radd _ O32i r r') (e + e') (A + A').
Proof. apply (ap_add 24 128). Qed.
Lemma lane_err (x0 x1 x2 x3 x4 y0 y1 y2 y3 y4 : f32) : let r := (x0 * y0 + x1 * y1 + (x2 * y2 + x3 * y3) + x4 * y4)%num in
  is_finite r = true -> ap 24 128 4 5 r (B2R x0 * B2R y0 + B2R x1 * B2R y1 + (B2R x2 * B2R y2 + B2R x3 * B2R y3) + B2R x4 * B2R y4)
    (Rabs (B2R x0 * B2R y0) + Rabs (B2R x1 * B2R y1) + (Rabs (B2R x2 * B2R y2) + Rabs (B2R x3 * B2R y3)) + Rabs (B2R x4 * B2R y4)).
Proof.
  intros r Fr. replace 5 with (4 + 1) by lra. apply (ap_add32 3 4 1); try lra; [exact Fr| |].
  - intro F1. replace 4 with (2 + 2) by lra. apply (ap_add32 2 2 2); try lra; [exact F1| |];
    intro F2; replace 2 with (1 + 1) by lra; (apply (ap_add32 1 1 1); try lra; [exact F2| |]; intro F3; apply (ap_mul32 _ _ F3)).
  - intro F1. apply (ap_weak 24 128 1 3); [lia|lra|]. apply (ap_mul32 _ _ F1).
Qed.
Lemma avx_channel_err (w v : list f32) : length v = 40%nat -> length w = 40%nat -> sums_to 8 80 (@avx_channel _ O32i w v) v w.
Proof.
  intros Hv Hw F. destruct (list40 v Hv) as (v0 & v1 & v2 & v3 & v4 & v5 & v6 & v7 & v8 & v9 & v10 & v11 & v12 & v13 & v14 & v15 & v16 & v17 & v18 & v19 & v20 & v21 & v22 & v23 & v24 & v25 & v26 & v27 & v28 & v29 & v30 & v31 & v32 & v33 & v34 & v35 & v36 & v37 & v38 & v39 & ->).
  destruct (list40 w Hw) as (w0 & w1 & w2 & w3 & w4 & w5 & w6 & w7 & w8 & w9 & w10 & w11 & w12 & w13 & w14 & w15 & w16 & w17 & w18 & w19 & w20 & w21 & w22 & w23 & w24 & w25 & w26 & w27 & w28 & w29 & w30 & w31 & w32 & w33 & w34 & w35 & w36 & w37 & w38 & w39 & ->). clear Hv Hw.
  rewrite avx_tree in *.
  assert (X : exists e A, ap 24 128 7 40 ((((v3 * w3 + v11 * w11 + (v19 * w19 + v27 * w27) + v35 * w35) + (v7 * w7 + v15 * w15 + (v23 * w23 + v31 * w31) + v39 * w39)) + ((v2 * w2 + v10 * w10 + (v18 * w18 + v26 * w26) + v34 * w34) + (v6 * w6 + v14 * w14 + (v22 * w22 + v30 * w30) + v38 * w38))) + (((v1 * w1 + v9 * w9 + (v17 * w17 + v25 * w25) + v33 * w33) + (v5 * w5 + v13 * w13 + (v21 * w21 + v29 * w29) + v37 * w37)) + ((v0 * w0 + v8 * w8 + (v16 * w16 + v24 * w24) + v32 * w32) + (v4 * w4 + v12 * w12 + (v20 * w20 + v28 * w28) + v36 * w36))))%num e A
     /\ e = wsum [v0; v1; v2; v3; v4; v5; v6; v7; v8; v9; v10; v11; v12; v13; v14; v15; v16; v17; v18; v19; v20; v21; v22; v23; v24; v25; v26; v27; v28; v29; v30; v31; v32; v33; v34; v35; v36; v37; v38; v39] [w0; w1; w2; w3; w4; w5; w6; w7; w8; w9; w10; w11; w12; w13; w14; w15; w16; w17; w18; w19; w20; w21; w22; w23; w24; w25; w26; w27; w28; w29; w30; w31; w32; w33; w34; w35; w36; w37; w38; w39] /\ A = wabs [v0; v1; v2; v3; v4; v5; v6; v7; v8; v9; v10; v11; v12; v13; v14; v15; v16; v17; v18; v19; v20; v21; v22; v23; v24; v25; v26; v27; v28; v29; v30; v31; v32; v33; v34; v35; v36; v37; v38; v39] [w0; w1; w2; w3; w4; w5; w6; w7; w8; w9; w10; w11; w12; w13; w14; w15; w16; w17; w18; w19; w20; w21; w22; w23; w24; w25; w26; w27; w28; w29; w30; w31; w32; w33; w34; w35; w36; w37; w38; w39]).
  { do 2 eexists. split; [|split].
    - replace 40 with (20 + 20) by lra. eapply (ap_add32 6 20 20); [lra|lra|exact F| |]; intro F1; replace 20 with (10 + 10) by lra;
      (eapply (ap_add32 5 10 10); [lra|lra|exact F1| |]; intro F2; replace 10 with (5 + 5) by lra;
       (eapply (ap_add32 4 5 5); [lra|lra|exact F2| |]; intro F3; apply lane_err; exact F3)).
    - cbn [wsum]. repeat match goal with |- context [B2R ?a * B2R ?b] => generalize (B2R a * B2R b); intro end. lra.
    - cbn [wabs]. repeat match goal with |- context [Rabs ?a] => generalize (Rabs a); intro end. lra. }
  destruct X as (e & A & (_ & E) & -> & ->). eapply Rle_trans; [exact E|]. change (- (24))%Z with (-24)%Z. change (2 - 128 - 24)%Z with (-150)%Z.
  match goal with |- context [wabs ?a ?b] => pose proof (wabs_pos a b) as W; set (S := wabs a b) in * end. clearbody S.
  assert (U : 0 < bpow radix2 (-24) <= / 1000) by (split; [apply bpow_gt_0|cbn; lra]). pose proof (bpow_gt_0 radix2 (-150)) as T.
  set (q := bpow radix2 (-24)) in *. set (h := bpow radix2 (-150)) in *. clearbody q h. clear - U W T.
  assert (B : (1 + q) ^ 7 <= 1 + 8 * q).
  { assert (P2 : q * q <= / 1000 * q) by (apply Rmult_le_compat_r; lra). assert (Q0 : 0 <= q * q) by nra.
    assert (P3 : (1 + q) ^ 2 <= 1 + 2.001 * q) by (cbn; nra). assert (P4 : (1 + q) ^ 3 <= 1 + 3.01 * q) by (cbn in *; nra).
    replace ((1 + q) ^ 7) with ((1 + q) ^ 3 * (1 + q) ^ 3 * (1 + q)) by ring.
    assert (0 <= (1 + q) ^ 3) by (apply pow_le; lra).
    assert ((1 + q) ^ 3 * (1 + q) ^ 3 <= (1 + 3.01 * q) * (1 + 3.01 * q)) by (apply Rmult_le_compat; lra).
    apply Rle_trans with ((1 + 3.01 * q) * (1 + 3.01 * q) * (1 + q)); [apply Rmult_le_compat_r; lra|]. nra. }
  apply Rplus_le_compat; [apply Rmult_le_compat_r; lra|]. replace (80 * h) with (2 * (40 * h)) by ring. apply Rmult_le_compat_r; lra.
Qed.
Theorem C80_avx_accurate (wx wy wz v : list f32) : length v = 40%nat -> length wx = 40%nat -> length wy = 40%nat -> length wz = 40%nat ->
  let r := @spd_to_xyz_avx _ O32i wx wy wz v in
  sums_to 8 80 (xyz_x r) v wx /\ sums_to 8 80 (xyz_y r) v wy /\ sums_to 8 80 (xyz_z r) v wz.
Proof. intros Hv Hx Hy Hz r. repeat split; apply avx_channel_err; assumption. Qed.
End S.

(* naively 1 + 2^-24 + 2^-24 is 1 in f32; the compensated loop gets it right *)
Definition tiny24 : f32 := b_of_Q 24 128 (1 # 16777216).
Definition one24 : f32 := b_of_Q 24 128 1.0.
Example C80_example (L : libm f32) : let w := [one24; one24; one24] in let v := [one24; tiny24; tiny24] in
  let r := @spd_to_xyz_scalar _ (f32_ops L) w w w v in
  is_finite (xyz_x r) = true /\ Beqb (xyz_x r) (Bplus mode_NE one24 (Bplus mode_NE tiny24 tiny24)) = true
  /\ Beqb (Bplus mode_NE (Bplus mode_NE one24 tiny24) tiny24) one24 = true.
Proof. repeat split. Qed.
Print Assumptions C80_scalar_accurate.
Print Assumptions C80_avx_accurate.
