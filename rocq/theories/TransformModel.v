(* Model of /repo/src/transform.rs *)
From Coq Require Import List ZArith QArith.
From Verif Require Import Outcome RealOps MathModel ColorModel AdaptModel SpaceModel.
Import ListNotations.
Open Scope num_scope.

Section Transform.
Context {T : Type} {O : RealOps T}.

(* transform.rs 10-15; [cat02] takes Into<XYZ>, so the xyY whites go through
   XYZ::from_chromaticity (xyz.rs 83-90) *)
Definition xyz_to_rgb_matrix (xyz_white : xyy T) (s : color_space T) : outcome (mat33 T) :=
  let! cat := cat02 (xyz_from_chromaticity xyz_white) (xyz_from_chromaticity (cs_white s)) in
  Ret (mat_mul (xf_xyz_to_rgb s) cat).

(* transform.rs 19-24 *)
Definition xyz_to_rgb_matrix_with_cat (cat_mtx : mat33 T) (s : color_space T) : mat33 T :=
  mat_mul (xf_xyz_to_rgb s) cat_mtx.

(* transform.rs 28-33 *)
Definition rgb_to_xyz_matrix (xyz_white : xyy T) (s : color_space T) : outcome (mat33 T) :=
  let! cat := cat02 (xyz_from_chromaticity (cs_white s)) (xyz_from_chromaticity xyz_white) in
  Ret (mat_mul cat (xf_rgb_to_xyz s)).

(* transform.rs 36-42 *)
Definition xyz_to_rgb (mtx : mat33 T) (c : xyz T) : rgbf T :=
  let x := mat_mul_xyz mtx (xyz_div c (xyz_from_scalar (rlit 100.0))) in
  Rgb (xyz_x x) (xyz_y x) (xyz_z x).

(* transform.rs 45-56: push one result per input *)
Definition xyz_slice_to_rgb (mtx : mat33 T) (xyzs : list (xyz T)) : list (rgbf T) :=
  fold_left (fun result c =>
    let x := mat_mul_xyz mtx (xyz_div c (xyz_from_scalar (rlit 100.0))) in
    result ++ [Rgb (xyz_x x) (xyz_y x) (xyz_z x)]) xyzs [].

(* transform.rs 59-65 *)
Definition rgb_to_xyz (mtx : mat33 T) (c : rgbf T) : xyz T :=
  let x := mat_mul_rgb mtx c in
  xyz_mul (Xyz (rgb_r x) (rgb_g x) (rgb_b x)) (xyz_from_scalar (rlit 100.0)).

(* transform.rs 71-76 *)
Definition rgb_to_rgb_matrix (from_space to_space : color_space T) : outcome (mat33 T) :=
  let! cat := cat02 (xyz_from_chromaticity (cs_white from_space))
                    (xyz_from_chromaticity (cs_white to_space)) in
  Ret (mat_mul (mat_mul (xf_xyz_to_rgb to_space) cat) (xf_rgb_to_xyz from_space)).

(* transform.rs 86-92: [to.iter_mut().zip(from)], writing through the iterator; elements of
   [to] beyond the shorter length are not visited.  [conv] is U::from. *)
Fixpoint rgb_to_rgb_loop {U : Type} (conv : rgbf T -> U) (from_space to_space : color_space T)
    (xf : mat33 T) (to : list U) (from : list (rgbf T)) : nat * list U :=
  match to, from with
  | _ :: to', f :: from' =>
      let f := cs_decode from_space f in
      let '(n, rest) := rgb_to_rgb_loop conv from_space to_space xf to' from' in
      (S n, conv (cs_encode to_space (mat_mul_rgb xf f)) :: rest)
  | _, _ => (0%nat, to)
  end.

(* transform.rs 80-93: returns the count and the new contents of [to] *)
Definition rgb_to_rgb {U : Type} (conv : rgbf T -> U) (from_space to_space : color_space T)
    (from : list (rgbf T)) (to : list U) : outcome (nat * list U) :=
  let! xf := rgb_to_rgb_matrix from_space to_space in
  Ret (rgb_to_rgb_loop conv from_space to_space xf to from).

(* transform.rs 96-159.  The planes xs, ys, zs (resp. the three result planes) are modelled as
   one list of triples, i.e. for equal plane lengths; with unequal lengths the source reads out
   of bounds through get_unchecked.  [W] is S::VF32_WIDTH. *)
(* 119-134: one lane of the vector body *)
Definition avx_lane (m : mat33 T) (c : xyz T) : rgbf T :=
  let scale := rlitd 0.01 in
  let x := xyz_x c * scale in
  let y := xyz_y c * scale in
  let z := xyz_z c * scale in
  let r := mx0 m * x in
  let r := rfma (mx1 m) y r in
  let r := rfma (mx2 m) z r in
  let g := mx3 m * x in
  let g := rfma (mx4 m) y g in
  let g := rfma (mx5 m) z g in
  let b := mx6 m * x in
  let b := rfma (mx7 m) y b in
  let b := rfma (mx8 m) z b in
  Rgb r g b.

(* 152-155: the scalar loop for the remaining elements *)
Definition avx_tail (m : mat33 T) (c : xyz T) : rgbf T :=
  let x := mat_mul_xyz m (Xyz (xyz_x c * rlitd 0.01) (xyz_y c * rlitd 0.01) (xyz_z c * rlitd 0.01)) in
  Rgb (xyz_x x) (xyz_y x) (xyz_z x).

(* overwrite [l] from position [off] with [vs] (storeu_ps, 137-139) *)
Definition store_at {A : Type} (off : nat) (vs l : list A) : list A :=
  firstn off l ++ vs ++ skipn (off + length vs) l.

Definition avx_planes (W : nat) (m : mat33 T) (cs : list (xyz T)) : list (rgbf T) :=
  let n := length cs in
  let result := repeat (Rgb (rlitd 0.0) (rlitd 0.0) (rlitd 0.0)) n in
  let num_iters := Nat.div n W in
  let start_remaining := (n - num_iters)%nat in
  let result :=
    fold_left (fun result i =>
      store_at (i * W)%nat (map (avx_lane m) (firstn W (skipn (i * W)%nat cs))) result)
      (seq 0 num_iters) result in
  store_at start_remaining (map (avx_tail m) (skipn start_remaining cs)) result.

End Transform.
