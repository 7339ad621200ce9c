(* Model of the pixel code of /repo/examples/convert.rs and /repo/examples/convert_with_matrices.rs; the
   reading and writing of PNG files is not modelled. *)
From Coq Require Import List ZArith QArith.
From Verif Require Import Outcome RealOps MathModel ColorModel AdaptModel SpaceModel TransformModel.
Import ListNotations.
Open Scope num_scope.

Section Example.
Context {T : Type} {O : RealOps T}.

(* slice::chunks_exact(3): a remainder of one or two elements is not visited *)
Fixpoint chunks_exact3 {A : Type} (l : list A) : list (A * A * A) :=
  match l with
  | a :: b :: c :: rest => (a, b, c) :: chunks_exact3 rest
  | _ => []
  end.

(* convert.rs 17-20, convert_with_matrices.rs 19-22 *)
Definition bytes_to_rgb (px_in_u8 : list Z) : list (rgbf T) :=
  map (fun p => let '(p0, p1, p2) := p in
         Rgb (rof_Z p0 / rlitd 255.0) (rof_Z p1 / rlitd 255.0) (rof_Z p2 / rlitd 255.0))
      (chunks_exact3 px_in_u8).

(* convert.rs 64-66, convert_with_matrices.rs 110-112: RGBu8 is repr(C) (rgb.rs 473-479) *)
Definition rgbu8_slice_as_u8 (slice : list rgbu) : list Z :=
  flat_map (fun c => [rgb_r c; rgb_g c; rgb_b c]) slice.

(* convert.rs 3-41: the bytes handed to the three calls of write_png *)
Definition convert_main (px_in_u8 : list Z) : outcome (list Z * list Z * list Z) :=
  let px_srgb := bytes_to_rgb px_in_u8 in
  let srgb := SRGB in
  let adobe_rgb := ADOBE_RGB_1998 in
  let alexa_wide := ALEXA_WIDE_GAMUT in
  let! dci_p3 := DCI_P3 in
  let px_adobe_rgb_u8 := repeat (Rgb 0 0 0)%Z (length px_srgb) in
  let px_alexa_wide_u8 := repeat (Rgb 0 0 0)%Z (length px_srgb) in
  let px_dci_p3_u8 := repeat (Rgb 0 0 0)%Z (length px_srgb) in
  let! adobe := rgb_to_rgb rgb_to_u8 srgb adobe_rgb px_srgb px_adobe_rgb_u8 in
  let! alexa := rgb_to_rgb rgb_to_u8 srgb alexa_wide px_srgb px_alexa_wide_u8 in
  let! p3 := rgb_to_rgb rgb_to_u8 srgb dci_p3 px_srgb px_dci_p3_u8 in
  Ret (rgbu8_slice_as_u8 (snd adobe), rgbu8_slice_as_u8 (snd alexa), rgbu8_slice_as_u8 (snd p3)).

(* convert_with_matrices.rs 5-87 *)
Definition convert_with_matrices_main (px_in_u8 : list Z) : outcome (list Z * list Z * list Z) :=
  let px_srgb := bytes_to_rgb px_in_u8 in
  let srgb := SRGB in
  let! xf_srgb_to_xyz := rgb_to_xyz_matrix (cs_white srgb) srgb in
  let px_xyz := map (fun p => rgb_to_xyz xf_srgb_to_xyz (cs_decode srgb p)) px_srgb in
  let adobe_rgb := ADOBE_RGB_1998 in
  let alexa_wide := ALEXA_WIDE_GAMUT in
  let! dci_p3 := DCI_P3 in
  let! xf_xyz_to_adobe_rgb := xyz_to_rgb_matrix (cs_white srgb) adobe_rgb in
  let! xf_xyz_to_alexa_wide := xyz_to_rgb_matrix (cs_white srgb) alexa_wide in
  let! xf_xyz_to_dci_p3 := xyz_to_rgb_matrix (cs_white srgb) dci_p3 in
  let px_adobe_rgb_u8 :=
    map (fun p => rgb_to_u8 (cs_encode adobe_rgb (xyz_to_rgb xf_xyz_to_adobe_rgb p))) px_xyz in
  let px_alexa_wide_u8 :=
    map (fun p => rgb_to_u8 (cs_encode alexa_wide (xyz_to_rgb xf_xyz_to_alexa_wide p))) px_xyz in
  let px_dci_p3_u8 :=
    map (fun p => rgb_to_u8 (cs_encode dci_p3 (xyz_to_rgb xf_xyz_to_dci_p3 p))) px_xyz in
  Ret (rgbu8_slice_as_u8 px_adobe_rgb_u8, rgbu8_slice_as_u8 px_alexa_wide_u8, rgbu8_slice_as_u8 px_dci_p3_u8).

End Example.
