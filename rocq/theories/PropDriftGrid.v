(** C176: paths of moves on a grid do not drift. *)
From Coq Require Import Reals Lra Lia List Bool ZArith.
From Flocq Require Import Core Relative BinarySingleNaN.
From Verif Require Import Base ModelColor ModelDouble ModelDecide ModelDoubleRotation ModelDoublePath ProofDouble PropDouble ProofGrid PropGrid PropCurveAccuracy ProofArea PropArea PropDrift.
Import ListNotations.
Local Open Scope R_scope.

(** ** What is expected *)
(** Parts whose coordinates are multiples of 2^e; directional segments are left out. *)
Definition part_on (e : Z) (a : d_part) : Prop :=
  match a with DRelative v => grid_point e (2 ^ 51) v | DAbsolute p => grid_point e (2 ^ 51) p | DHorizontal h => grid_number e (2 ^ 51) h | DVertical h => grid_number e (2 ^ 51) h | DDirection _ _ => False end.

(** ** Lemmas *)
Lemma grid_exactly e m x r : (exactly x r e m) <-> (grid_number e m x /\ B2R x = r).
Proof. split; [intros (F & V & z & E & B); split; [split; [exact F|exists z; split; [unfold val in V; congruence|exact B]]|exact V]|intros ((F & z & E & B) & V); split; [exact F|]; split; [exact V|]; exists z; split; [congruence|exact B]]. Qed.
Lemma rebound e m n x r : exactly x r e m -> Rabs r <= IZR n * bpow radix2 e -> exactly x r e n.
Proof.
  intros (F & V & z & E & _) B. split; [exact F|]. split; [exact V|]. exists z. split; [exact E|]. rewrite E, Rabs_mult, (Rabs_pos_eq (bpow radix2 e)) in B by apply bpow_ge_0.
  apply Rmult_le_reg_r in B; [|apply bpow_gt_0]. rewrite <- abs_IZR in B. apply le_IZR in B. exact B.
Qed.
Lemma grid_path dcos dsin e : (-1074 <= e <= 971)%Z -> forall l w x y, Forall (part_on e) l -> stays (IZR (2 ^ 51) * bpow radix2 e) x y l -> exactly (d_x w) x e (2 ^ 51) -> exactly (d_y w) y e (2 ^ 51) ->
  exactly (d_x (d_path_stop dcos dsin w l)) (end_x x y l) e (2 ^ 51) /\ exactly (d_y (d_path_stop dcos dsin w l)) (end_y x y l) e (2 ^ 51).
Proof.
  intros HE l. induction l as [|a l IH]; intros w x y FA ST WX WY; [split; assumption|].
  inversion FA as [|? ? PA FL]; subst. cbn [stays] in ST. destruct ST as (BX & BY & ST). unfold d_path_stop. cbn [fold_left end_x end_y]. fold (d_path_stop dcos dsin (d_stop dcos dsin w a) l).
  assert (G : forall h, grid_number e (2 ^ 51) h -> exactly h (B2R h) e (2 ^ 51)) by (intros h H; apply grid_exactly; auto).
  assert (R : in_range e (2 ^ 51 + 2 ^ 51)) by (split; [exact HE|reflexivity]).
  assert (A : forall v p r, grid_number e (2 ^ 51) v -> exactly p r e (2 ^ 51) -> Rabs (r + B2R v) <= IZR (2 ^ 51) * bpow radix2 e -> exactly (dbl_add v p) (r + B2R v) e (2 ^ 51)).
  { intros v p r GV GP B. apply (rebound e (2 ^ 51 + 2 ^ 51)); [|exact B]. rewrite Rplus_comm. apply exact_add; auto. }
  apply IH; [exact FL|exact ST| |]; destruct a as [v|p|h|h|len angle]; cbn [d_stop next_x next_y part_on d_x d_y d_add] in *; try contradiction.
  - apply A; [apply PA|exact WX|exact BX].
  - apply G, PA.
  - apply G, PA.
  - exact WX.
  - apply A; [apply PA|exact WY|exact BY].
  - apply G, PA.
  - exact WY.
  - apply G, PA.
Qed.

(** ** The theorems *)
(** The stop point of a path on a grid is exact, however many parts there are. *)
Theorem C176_grid : forall dcos dsin e p0 l, (-1074 <= e <= 971)%Z -> grid_point e (2 ^ 51) p0 -> Forall (part_on e) l -> stays (IZR (2 ^ 51) * bpow radix2 e) (X p0) (Y p0) l ->
  is_at (d_path_stop dcos dsin p0 l) (end_x (X p0) (Y p0) l) (end_y (X p0) (Y p0) l).
Proof.
  intros dcos dsin e p0 l HE (GX & GY) FA ST. destruct (grid_path dcos dsin e HE l p0 (X p0) (Y p0) FA ST) as ((F1 & V1 & _) & (F2 & V2 & _)); [apply grid_exactly; auto|apply grid_exactly; auto|].
  split; [split; assumption|]. split; assumption.
Qed.
Print Assumptions C176_grid.
(** So closed paths on a grid come back. *)
Theorem C176_grid_closed : forall dcos dsin e p0 l, (-1074 <= e <= 971)%Z -> grid_point e (2 ^ 51) p0 -> Forall (part_on e) l -> stays (IZR (2 ^ 51) * bpow radix2 e) (X p0) (Y p0) l ->
  end_x (X p0) (Y p0) l = X p0 -> end_y (X p0) (Y p0) l = Y p0 -> X (d_path_stop dcos dsin p0 l) = X p0 /\ Y (d_path_stop dcos dsin p0 l) = Y p0.
Proof. intros dcos dsin e p0 l HE G FA ST EX EY. destruct (C176_grid dcos dsin e p0 l HE G FA ST) as (_ & V1 & V2). rewrite V1, V2. split; assumption. Qed.
Print Assumptions C176_grid_closed.

(** A path of two moves and back, in units. *)
Example C176_grid_example : let l := [DRelative (D (of_int 2) one); DHorizontal zero; DVertical zero] in
  Forall (part_on 0) l /\ stays (IZR (2 ^ 51) * bpow radix2 0) 0 0 l /\ end_x 0 0 l = 0 /\ end_y 0 0 l = 0.
Proof.
  intros l. destruct one_val as (V1 & F1 & _). unfold val in V1. assert (V2 : number (of_int 2) /\ B2R (of_int 2) = 2) by number_value. destruct V2 as (F2 & V2). assert (VZ : B2R zero = 0) by reflexivity.
  assert (G : forall x z, number x -> B2R x = IZR z -> (0 <= z <= 2)%Z -> grid_number 0 (2 ^ 51) x) by (intros x z F V B; split; [exact F|]; exists z; split; [rewrite V; cbn; ring|lia]).
  assert (GZ : grid_number 0 (2 ^ 51) zero) by (apply (G zero 0%Z); [reflexivity|exact VZ|lia]).
  split; [repeat apply Forall_cons; try apply Forall_nil; cbn [part_on]; try exact GZ; split; [apply (G _ 2%Z); auto; lia|apply (G _ 1%Z); auto; lia]|].
  unfold l. cbn [stays next_x next_y end_x end_y d_x d_y]. rewrite V1, V2, VZ. change (bpow radix2 0) with 1. change (IZR (2 ^ 51)) with 2251799813685248. rewrite Rabs_R0, !Rabs_pos_eq by lra. lra.
Qed.
