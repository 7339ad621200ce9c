(* Plain 3x3 linear algebra over the reals, written out entry by entry.  Nothing here uses a
   definition of the model other than the record types holding nine (three) numbers. *)
From Coq Require Import Reals Lra.
From Verif Require Import RealOps MathModel ColorModel XReal.
Open Scope R_scope.

Notation RM := (mat33 R).
Notation M3 := Mat33.

(* rows: (a b c) (d e f) (g h i) *)
Definition mmul (p q : RM) : RM :=
  match p, q with
  | Mat33 a b c d e f g h i, Mat33 a' b' c' d' e' f' g' h' i' =>
      Mat33 (a * a' + b * d' + c * g') (a * b' + b * e' + c * h') (a * c' + b * f' + c * i')
            (d * a' + e * d' + f * g') (d * b' + e * e' + f * h') (d * c' + e * f' + f * i')
            (g * a' + h * d' + i * g') (g * b' + h * e' + i * h') (g * c' + h * f' + i * i')
  end.
Definition mone : RM := Mat33 1 0 0 0 1 0 0 0 1.
(* Leibniz' sum over the six permutations *)
Definition mdet (p : RM) : R :=
  match p with
  | Mat33 a b c d e f g h i =>
      a * e * i + b * f * g + c * d * h - c * e * g - b * d * i - a * f * h
  end.
Definition mtr (p : RM) : RM :=
  match p with Mat33 a b c d e f g h i => Mat33 a d g b e h c f i end.
(* columns as vectors *)
Definition vec : Type := (R * R * R)%type.
Definition mapp (p : RM) (v : vec) : vec :=
  match p, v with
  | Mat33 a b c d e f g h i, (x, y, z) =>
      (a * x + b * y + c * z, d * x + e * y + f * z, g * x + h * y + i * z)
  end.
Definition vadd (u v : vec) : vec :=
  match u, v with (x, y, z), (x', y', z') => (x + x', y + y', z + z') end.
Definition vscale (k : R) (v : vec) : vec :=
  match v with (x, y, z) => (k * x, k * y, k * z) end.
(* two-sided inverse *)
Definition is_inverse (n m : RM) : Prop := mmul n m = mone /\ mmul m n = mone.

(* reading and writing a model value holding finite numbers *)
Definition FinM (p : RM) : mat33 xr :=
  match p with
  | Mat33 a b c d e f g h i =>
      Mat33 (Fin a) (Fin b) (Fin c) (Fin d) (Fin e) (Fin f) (Fin g) (Fin h) (Fin i)
  end.
Definition FinXyz (v : vec) : xyz xr := match v with (x, y, z) => Xyz (Fin x) (Fin y) (Fin z) end.
Definition FinRgb (v : vec) : rgbf xr := match v with (x, y, z) => Rgb (Fin x) (Fin y) (Fin z) end.

(* ---- algebra ---- *)
Ltac mat_ring := intros;
  repeat match goal with p : mat33 R |- _ => destruct p end;
  repeat match goal with v : vec |- _ => destruct v as [[? ?] ?] end;
  cbn; try (f_equal; ring); try ring.

Ltac vec_ring := repeat match goal with |- (_, _) = (_, _) => apply f_equal2 end; try ring.
Ltac fin_ring := f_equal; try (apply (f_equal Fin); try ring).

Lemma mmul_assoc p q r : mmul (mmul p q) r = mmul p (mmul q r).
Proof. mat_ring. Qed.
Lemma mmul_1_l p : mmul mone p = p.
Proof. mat_ring. Qed.
Lemma mmul_1_r p : mmul p mone = p.
Proof. mat_ring. Qed.
Lemma mdet_mul p q : mdet (mmul p q) = mdet p * mdet q.
Proof. mat_ring. Qed.
Lemma mdet_one : mdet mone = 1.
Proof. cbn; ring. Qed.
Lemma mtr_mul p q : mtr (mmul p q) = mmul (mtr q) (mtr p).
Proof. mat_ring. Qed.
Lemma mdet_tr p : mdet (mtr p) = mdet p.
Proof. mat_ring. Qed.
Lemma mapp_mul p q v : mapp (mmul p q) v = mapp p (mapp q v).
Proof. intros; destruct p, q, v as [[? ?] ?]; cbn; vec_ring. Qed.
Lemma mapp_one v : mapp mone v = v.
Proof. destruct v as [[x y] z]; cbn; vec_ring. Qed.
Lemma mapp_add p u v : mapp p (vadd u v) = vadd (mapp p u) (mapp p v).
Proof. intros; destruct p, u as [[? ?] ?], v as [[? ?] ?]; cbn; vec_ring. Qed.
Lemma mapp_scale p k v : mapp p (vscale k v) = vscale k (mapp p v).
Proof. intros; destruct p, v as [[? ?] ?]; cbn; vec_ring. Qed.

(* adjugate and the inverse it gives *)
Definition madj (p : RM) : RM :=
  match p with
  | Mat33 a b c d e f g h i =>
      Mat33 (e * i - f * h) (c * h - b * i) (b * f - c * e)
            (f * g - d * i) (a * i - c * g) (c * d - a * f)
            (d * h - e * g) (b * g - a * h) (a * e - b * d)
  end.
Definition mscale (k : R) (p : RM) : RM :=
  match p with
  | Mat33 a b c d e f g h i =>
      Mat33 (k * a) (k * b) (k * c) (k * d) (k * e) (k * f) (k * g) (k * h) (k * i)
  end.
Definition minv (p : RM) : RM := mscale (/ mdet p) (madj p).

Lemma minv_l p : mdet p <> 0 -> mmul (minv p) p = mone.
Proof. intro H; destruct p; unfold minv; cbn in *; unfold mone; f_equal; field; exact H. Qed.
Lemma minv_r p : mdet p <> 0 -> mmul p (minv p) = mone.
Proof. intro H; destruct p; unfold minv; cbn in *; unfold mone; f_equal; field; exact H. Qed.

Lemma left_inverse_det n m : mmul n m = mone -> mdet m <> 0.
Proof.
  intros H E. assert (D : mdet n * mdet m = 1) by (rewrite <- mdet_mul, H; apply mdet_one).
  rewrite E in D. lra.
Qed.
Lemma left_inverse_unique n m : mmul n m = mone -> n = minv m.
Proof.
  intro H. pose proof (left_inverse_det _ _ H) as D.
  rewrite <- (mmul_1_r n), <- (minv_r m D), <- mmul_assoc, H, mmul_1_l. reflexivity.
Qed.
Lemma left_is_inverse n m : mmul n m = mone -> is_inverse n m.
Proof.
  intro H. split; [exact H|]. pose proof (left_inverse_det _ _ H) as D.
  rewrite (left_inverse_unique _ _ H). apply minv_r; exact D.
Qed.
Lemma is_inverse_sym n m : is_inverse n m -> is_inverse m n.
Proof. intros [H1 H2]; split; assumption. Qed.
Lemma is_inverse_unique n n' m : is_inverse n m -> is_inverse n' m -> n = n'.
Proof.
  intros [H _] [H' _]. rewrite (left_inverse_unique _ _ H), (left_inverse_unique _ _ H').
  reflexivity.
Qed.
Lemma minv_is_inverse m : mdet m <> 0 -> is_inverse (minv m) m.
Proof. intro H; split; [apply minv_l | apply minv_r]; exact H. Qed.
