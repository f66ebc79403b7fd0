(** Model in double precision of the product of two transformations of
    Patro/GeometryEngine/Transformation.py. *)
From Coq Require Import List ZArith Bool.
From Verif Require Import Base ModelColor ModelDouble.
Import ListNotations.

(** Transformation.py 411-421 and 181-188: np.matmul of two affine matrices, whose last row is (0, 0, 1).
    The three products of each coefficient are added from left to right; those by the last row are kept. *)
Definition d_term (a0 a1 a2 b0 b1 b2 : float) : float := dbl_add (dbl_add (fmul a0 b0) (fmul a1 b1)) (fmul a2 b2).
Definition d_compose (a b : dmat) : dmat :=
  DM (d_term (dm00 a) (dm01 a) (dm02 a) (dm00 b) (dm10 b) zero) (d_term (dm00 a) (dm01 a) (dm02 a) (dm01 b) (dm11 b) zero) (d_term (dm00 a) (dm01 a) (dm02 a) (dm02 b) (dm12 b) one)
     (d_term (dm10 a) (dm11 a) (dm12 a) (dm00 b) (dm10 b) zero) (d_term (dm10 a) (dm11 a) (dm12 a) (dm01 b) (dm11 b) zero) (d_term (dm10 a) (dm11 a) (dm12 a) (dm02 b) (dm12 b) one).
