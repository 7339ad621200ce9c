(* Model of the fixed-shape SPD of /repo/src/spd.rs (f32 in the source) *)
From Coq Require Import List ZArith QArith.
From Verif Require Import Outcome RealOps MathModel ColorModel.
Import ListNotations.
Open Scope num_scope.

(* spd.rs 16 *)
Definition spd_samples : nat := 40.

Section SpdSec.
Context {T : Type} {O : RealOps T}.

(* spd.rs 26-34: SPD is [f32; 40]; the length is a type-level fact in Rust and an explicit
   hypothesis of the theorems here *)
Definition spd40 : Type := list T.

(* spd.rs 37-46 *)
Definition spd_constant (v : T) : spd40 := repeat v spd_samples.

(* spd.rs 66-75 *)
Definition spd_eqb (a b : spd40) : bool :=
  forallb (fun '(l, r) => l =? r) (combine a b).

(* spd.rs 191-203 *)
Definition spd_mul (a b : spd40) : spd40 := map (fun '(l, r) => l * r) (combine a b).

(* one iteration of the compensated loop, spd.rs 98-108; state (xyz, c) *)
Definition kahan_step (st : xyz T * xyz T) (x : xyz T) : xyz T * xyz T :=
  let '(acc, c) := st in
  let y := xyz_sub x c in
  let t := xyz_add acc y in
  (t, xyz_sub (xyz_sub t acc) y).

(* spd.rs 93-112; [wx wy wz] are the tables W_X W_Y W_Z (273-398) *)
Definition spd_to_xyz_scalar (wx wy wz : list T) (spd : spd40) : xyz T :=
  let terms := map (fun '((s, x), (y, z)) => Xyz (s * x) (s * y) (s * z))
                   (combine (combine spd wx) (combine wy wz)) in
  let zero := Xyz (rlitd 0.0) (rlitd 0.0) (rlitd 0.0) in
  fst (fold_left kahan_step terms (zero, zero)).

(* ---- the AVX path; a __m256 is the list of its eight lanes, lane 0 first ---- *)
Definition mm256_loadu (p : list T) (off : nat) : list T := firstn 8 (skipn off p).
Definition mm256_mul (a b : list T) : list T := map (fun '(l, r) => l * r) (combine a b).
Definition mm256_add (a b : list T) : list T := map (fun '(l, r) => l + r) (combine a b).
(* _mm256_permute2f128_ps(v, v, 1): swap the 128-bit halves *)
Definition mm256_swap128 (v : list T) : list T := skipn 4 v ++ firstn 4 v.
(* _mm256_hadd_ps(a, b): adjacent pairs, within each 128-bit half, a then b *)
Definition mm256_hadd (a b : list T) : list T :=
  match a, b with
  | [a0; a1; a2; a3; a4; a5; a6; a7], [b0; b1; b2; b3; b4; b5; b6; b7] =>
      [a1 + a0; a3 + a2; b1 + b0; b3 + b2; a5 + a4; a7 + a6; b5 + b4; b7 + b6]
  | _, _ => []
  end.
(* spd.rs 183-189 *)
Definition hadd_avx (v0 : list T) : T :=
  let ymm2 := mm256_swap128 v0 in
  let ymm := mm256_add v0 ymm2 in
  let ymm := mm256_hadd ymm ymm in
  let ymm := mm256_hadd ymm ymm in
  nth 0 ymm (rlitd 0.0).

(* spd.rs 117-180 for one weight table; the three channels are independent *)
Definition avx_channel (w : list T) (spd : spd40) : T :=
  let s0 := mm256_loadu spd 0 in
  let s1 := mm256_loadu spd 8 in
  let s2 := mm256_loadu spd 16 in
  let s3 := mm256_loadu spd 24 in
  let s4 := mm256_loadu spd 32 in
  let x0 := mm256_loadu w 0 in
  let x1 := mm256_loadu w 8 in
  let x2 := mm256_loadu w 16 in
  let x3 := mm256_loadu w 24 in
  let x4 := mm256_loadu w 32 in
  let xs0 := mm256_mul s0 x0 in
  let xs1 := mm256_mul s1 x1 in
  let xs2 := mm256_mul s2 x2 in
  let xs3 := mm256_mul s3 x3 in
  let xs4 := mm256_mul s4 x4 in
  let xa := mm256_add xs0 xs1 in
  let xb := mm256_add xs2 xs3 in
  let xc := mm256_add xa xb in
  let xd := mm256_add xc xs4 in
  hadd_avx xd.
Definition spd_to_xyz_avx (wx wy wz : list T) (spd : spd40) : xyz T :=
  Xyz (avx_channel wx spd) (avx_channel wy spd) (avx_channel wz spd).

End SpdSec.
Arguments spd40 T : clear implicits.
