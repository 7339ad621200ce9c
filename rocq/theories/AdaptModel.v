(* Model of /repo/src/chromatic_adaptation.rs *)
From Coq Require Import List ZArith QArith.
From Verif Require Import Outcome RealOps MathModel ColorModel.
Open Scope num_scope.

Section Adapt.
Context {T : Type} {O : RealOps T}.

(* The three functions have the same tail (lines 32-47, 79-94, 122-137). *)
Definition cat_apply (M_A M_A_inv : mat33 T) (wp_src wp_dst : xyz T) : mat33 T :=
  let src_A := mat_mul_xyz M_A wp_src in
  let dst_A := mat_mul_xyz M_A wp_dst in
  let M_wp := Mat33 (xyz_x dst_A / xyz_x src_A) (rlit 0.0) (rlit 0.0)
                    (rlit 0.0) (xyz_y dst_A / xyz_y src_A) (rlit 0.0)
                    (rlit 0.0) (rlit 0.0) (xyz_z dst_A / xyz_z src_A) in
  mat_mul (mat_mul M_A_inv M_wp) M_A.

(* chromatic_adaptation.rs 25-29 *)
Definition bradford_M : mat33 T :=
  Mat33 (rlit 0.8951000) (rlit 0.2664000) (rneg (rlit 0.1614000))
        (rneg (rlit 0.7502000)) (rlit 1.7135000) (rlit 0.0367000)
        (rlit 0.0389000) (rneg (rlit 0.0685000)) (rlit 1.0296000).

(* chromatic_adaptation.rs 14-48; the unwrap on line 30 panics if there is no inverse *)
Definition bradford (wp_src wp_dst : xyz T) : outcome (mat33 T) :=
  if xyz_eqb wp_src wp_dst then Ret mat_identity
  else let! M_A_inv := unwrap (mat_inverse bradford_M) in
       Ret (cat_apply bradford_M M_A_inv wp_src wp_dst).

(* chromatic_adaptation.rs 67-71 *)
Definition von_kries_M : mat33 T :=
  Mat33 (rlit 0.4002400) (rlit 0.7076000) (rneg (rlit 0.0808100))
        (rneg (rlit 0.2263000)) (rlit 1.1653200) (rlit 0.0457000)
        (rlit 0.0000000) (rlit 0.0000000) (rlit 0.9182200).
(* chromatic_adaptation.rs 73-77 *)
Definition von_kries_M_inv : mat33 T :=
  Mat33 (rlit 1.8599364) (rneg (rlit 1.1293816)) (rlit 0.2198974)
        (rlit 0.3611914) (rlit 0.6388125) (rneg (rlit 0.0000064))
        (rlit 0.0000000) (rlit 0.0000000) (rlit 1.0890636).

(* chromatic_adaptation.rs 56-95 *)
Definition von_kries (wp_src wp_dst : xyz T) : mat33 T :=
  if xyz_eqb wp_src wp_dst then mat_identity
  else cat_apply von_kries_M von_kries_M_inv wp_src wp_dst.

(* chromatic_adaptation.rs 114-118 *)
Definition cat02_M : mat33 T :=
  Mat33 (rlit 0.7328) (rlit 0.4296) (rneg (rlit 0.1624))
        (rneg (rlit 0.7036)) (rlit 1.6975) (rlit 0.0061)
        (rlit 0.0030) (rlit 0.0136) (rlit 0.9834).

(* chromatic_adaptation.rs 103-138 *)
Definition cat02 (wp_src wp_dst : xyz T) : outcome (mat33 T) :=
  if xyz_eqb wp_src wp_dst then Ret mat_identity
  else let! M_A_inv := unwrap (mat_inverse cat02_M) in
       Ret (cat_apply cat02_M M_A_inv wp_src wp_dst).

End Adapt.
