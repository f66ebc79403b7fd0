From Coq Require Import String Ascii List Bool Arith Reals Lia Lra.
From Verif Require Import Base ModelFormula ModelVector ModelTransformation ModelLine ModelBezier ModelConic ModelPath SpecPath GluePath ProofVector ProofPath ModelSvgPath SpecSvgPath GlueSvgPath.
Import ListNotations.
Local Open Scope R_scope.

Definition flag (x : R) : bool := if Req_EM_T x 0 then false else true.
Definition command_of (c : svg) : command :=
  match c with
  | Line absolute p => LineTo p None absolute
  | Horizontal true x => AbsoluteHorizontalTo x None
  | Horizontal false x => HorizontalTo x None false
  | Vertical absolute y => VerticalTo y None absolute
  | Cubic absolute p1 p2 p3 => CubicTo p1 p2 p3 absolute
  | Quadratic absolute p1 p2 => QuadraticTo p1 p2 absolute
  | Arc absolute rx ry angle large sweep p => ArcTo p rx ry angle (flag large) (flag sweep) absolute
  | _ => Close None None
  end.
Definition part_of (home : vec) (c : svg) : part :=
  let k := plain None false in
  match c with
  | Line absolute p => Linear (PLine p absolute) k
  | Horizontal true x => Linear (PAbsX x) k
  | Horizontal false x => Linear (PDir 0 x) k
  | Vertical absolute y => Linear (PDir 90 y) k
  | Cubic absolute p1 p2 p3 => PCubic p1 p2 p3 absolute
  | Quadratic absolute p1 p2 => PQuad p1 p2 absolute
  | Arc absolute rx ry angle large sweep p => PArc p rx ry angle (flag large) (flag sweep) absolute
  | _ => Linear (PLine home true) k
  end.
Lemma truth_flag x : truth x = flag x.
Proof. unfold truth, flag, Reqb. destruct (Req_EM_T x 0); reflexivity. Qed.

Lemma do_svg_ok p c args s : decode (c, args) = Some s -> supported s -> do_svg p c args = do_command p (command_of s).
Proof.
  intros D S. destruct c as [[] [] [] [] [] [] [] []]; cbn in D; try discriminate D;
    (destruct args as [|a1 args]; [|destruct args as [|a2 args]; [|destruct args as [|a3 args]; [|destruct args as [|a4 args];
      [|destruct args as [|a5 args]; [|destruct args as [|a6 args]; [|destruct args as [|a7 args]; [|destruct args]]]]]]]);
    try discriminate D; injection D as <-; cbn in S; try contradiction; try discriminate S; try reflexivity;
    unfold command_of; rewrite <- !truth_flag; reflexivity.
Qed.
Lemma do_svgs_ok l svgs : map decode l = map Some svgs -> Forall supported svgs -> forall p,
  do_svgs p l = draw p (map command_of svgs).
Proof.
  revert svgs. induction l as [|[c args] l IH]; intros [|s svgs] D F p; try discriminate D; [reflexivity|].
  cbn [map] in D. injection D as D1 D2. inversion F as [|? ? S F']; subst. cbn [do_svgs map draw]. rewrite (do_svg_ok p c args s D1 S).
  destruct (do_command p (command_of s)); [|reflexivity]. cbn [bind]. apply IH; assumption.
Qed.
Lemma svg_drawable s : supported s -> drawable (command_of s).
Proof. destruct s; cbn; try tauto. destruct absolute; cbn; auto. Qed.
Lemma svg_rounding s : rounding (command_of s) = None.
Proof. destruct s; try reflexivity. destruct absolute; reflexivity. Qed.
Lemma svg_close_radius s : match command_of s with Close _ (Some _) => False | _ => True end.
Proof. destruct s; cbn; try exact Logic.I. destruct absolute; exact Logic.I. Qed.
Lemma svg_roundable l : forall seen, roundable seen (map command_of l).
Proof.
  induction l as [|s l IH]; intro seen; cbn [map roundable]; [exact Logic.I|]. split; [rewrite svg_rounding; congruence|].
  pose proof (svg_close_radius s) as K. split.
  - destruct (command_of s); try exact Logic.I. destruct close_radius; [destruct K|exact Logic.I].
  - assert (G : Forall (fun c => match c with Close _ (Some _) => hd true seen = true | _ => True end) (map command_of l)).
    { apply Forall_map, Forall_forall. intros x _. pose proof (svg_close_radius x). destruct (command_of x); try exact Logic.I.
      destruct close_radius; [contradiction|exact Logic.I]. }
    destruct (command_of s); try apply IH. exact G.
Qed.

Lemma closes_tail s l : closes_last (s :: l) -> closes_last l.
Proof. intros H i E. specialize (H (S i) E). cbn in H. lia. Qed.
Lemma draw_parts l : Forall supported l -> closes_last l -> forall p p', closed p = false -> draw p (map command_of l) = Ok p' ->
  parts p' = parts p ++ map (part_of (p0 p)) l.
Proof.
  induction l as [|s l IH]; intros F C p p' O E; [injection E as <-; rewrite app_nil_r; reflexivity|].
  inversion F as [|? ? Ss F']; subst. cbn [map draw] in E.
  destruct (do_command p (command_of s)) as [q|] eqn:Q; [|discriminate]. cbn [bind] in E.
  assert (K : parts q = parts p ++ [part_of (p0 p) s] /\ p0 q = p0 p /\ (closed q = false \/ l = [])).
  { destruct s; cbn in Ss; try contradiction; try (destruct absolute; try discriminate Ss); cbn in Q; unfold close, add_part in Q; rewrite O in Q; cbn in Q;
      injection Q as <-; cbn; (split; [reflexivity|]; split; [reflexivity|]); auto.
    right. specialize (C 0%nat eq_refl). cbn in C. destruct l; [reflexivity|cbn in C; lia]. }
  destruct K as (P & P0 & [O' | ->]).
  - rewrite (IH F' (closes_tail _ _ C) q p' O' E), P, P0. cbn [map]. rewrite <- app_assoc. reflexivity.
  - injection E as <-. exact P.
Qed.

(** The stroke of a command, from where the pen is and where it arrives *)
Definition stroke_of (c : svg) (s e : vec) : stroke :=
  let abs a v := if a : bool then v else V (vx s + vx v) (vy s + vy v) in
  match c with
  | Cubic a p1 p2 p3 => SCubic s (abs a p1) (abs a p2) e
  | Quadratic a p1 p2 => SQuadratic s (abs a p1) e
  | Arc a rx ry angle large sweep p => SArc s e rx ry angle (flag large) (flag sweep)
  | _ => SLine s e
  end.
Lemma step_trace c n : supported c -> exists n', let e := arrive (home n) (at_ n) (GluePath.pen (command_of c)) in
  step n c = ([stroke_of c (at_ n) e], n') /\ home n' = home n /\ at_ n' = e /\
  (c <> ClosePath -> forall l, trace (home n) (at_ n) (GluePath.pen (command_of c) :: l) = (at_ n, e) :: trace (home n') (at_ n') l).
Proof.
  destruct n as [h a k1 k2]. destruct c; cbn [supported]; intro S; try contradiction; try subst absolute; try destruct absolute; cbn; rewrite ?Rplus_0_r;
    (eexists; split; [reflexivity|]; cbn; split; [reflexivity|]; split; [reflexivity|]; try congruence; intros; rewrite ?Rplus_0_r; reflexivity).
Qed.
Lemma strokes_trace l : Forall supported l -> closes_last l -> forall n,
  strokes n l = map (fun cs => stroke_of (fst cs) (fst (snd cs)) (snd (snd cs))) (combine l (trace (home n) (at_ n) (map GluePath.pen (map command_of l)))) /\
  length (trace (home n) (at_ n) (map GluePath.pen (map command_of l))) = length l.
Proof.
  induction l as [|c l IH]; intros F C n; [split; reflexivity|]. inversion F as [|? ? Ss F']; subst.
  destruct (step_trace c n Ss) as (n' & E & H & A & T). cbn [strokes]. rewrite E. cbn [fst snd app].
  assert (D : c = ClosePath \/ c <> ClosePath) by (destruct c; ((left; reflexivity) || (right; discriminate))). destruct D as [D|D].
  - subst c. assert (l = []) as -> by (specialize (C 0%nat eq_refl); cbn in C; destruct l; [reflexivity|cbn in C; lia]). split; reflexivity.
  - cbn [map]. rewrite (T D). destruct (IH F' (closes_tail _ _ C) n') as (I1 & I2). cbn [combine map length fst snd]. rewrite I1, I2. split; reflexivity.
Qed.

Lemma part_geometry p i c s e : supported c -> nth_error (parts p) i = Some (part_of (p0 p) c) ->
  (forall j k, nth_error (parts p) i = Some (Linear j k) -> forall j' k', nth_error (parts p) (i + 1) = Some (Linear j' k') -> radius k' = None) ->
  start_point p i = Ok s -> stop_point p i = Ok e -> fst (geometry i p) = shown (stroke_of c s e).
Proof.
  intros S N R Hs He. assert (He' := He). unfold stop_point in He'. rewrite N in He'.
  assert (G : forall v, V (vx s + vx v) (vy s + vy v) = vadd v s) by (intro v; unfold vadd; f_equal; ring).
  assert (L : forall k, nth_error (parts p) i = Some (Linear k (plain None false)) -> fst (linear_points i p) = Ok (s, e)).
  { intros k K. unfold linear_points, andthen, corner_at, here. rewrite K. cbn. unfold ret. rewrite Hs.
    change (next_index i (plain None false)) with (i + 1)%nat. destruct (nth_error (parts p) (i + 1)) as [q|] eqn:Q; [|rewrite He; reflexivity].
    destruct q; try (rewrite He; reflexivity). rewrite (R _ _ K _ _ eq_refl). rewrite He. reflexivity. }
  assert (M : forall k (f : vec * vec -> reader piece), nth_error (parts p) i = Some (Linear k (plain None false)) ->
    fst (andthen (linear_points i) f p) = fst (f (s, e) (snd (linear_points i p)))).
  { intros k f K. unfold andthen. pose proof (L k K) as Q. destruct (linear_points i p) as [r p']. cbn in Q. subst r. reflexivity. }
  unfold geometry. unfold andthen at 1. unfold here.
  destruct c; cbn [supported] in S; try contradiction; try subst absolute; cbn [part_of] in N, He'; try rewrite N.
  - rewrite (M _ _ N). reflexivity.
  - destruct absolute; cbn [part_of] in N, He'; cbn; rewrite Hs, He; reflexivity.
  - cbn. rewrite Hs, He. reflexivity.
  - cbn in He'. unfold to_absolute_point. rewrite Hs in *. cbn in He'. destruct absolute; cbn in He' |- *; injection He' as <-; rewrite ?G; reflexivity.
  - cbn in He'. unfold to_absolute_point. rewrite Hs in *. cbn in He'. destruct absolute; cbn in He' |- *; injection He' as <-; rewrite ?G; reflexivity.
  - cbn. rewrite Hs, He. reflexivity.
  - rewrite (M _ _ N). reflexivity.
Qed.
Lemma nth_combine {A B} (l : list A) (m : list B) i x : nth_error (combine l m) i = Some x -> nth_error l i = Some (fst x) /\ nth_error m i = Some (snd x).
Proof. revert m i. induction l as [|a l IH]; intros [|b m] [|i] H; try discriminate H; cbn in *; [injection H as <-; auto|exact (IH m i H)]. Qed.

Lemma draw_p0 l : forall q p, draw q (map command_of l) = Ok p -> p0 p = p0 q.
Proof.
  induction l as [|s l IH]; intros q0 p P; [injection P as <-; reflexivity|].
  cbn [map draw] in P. destruct (do_command q0 (command_of s)) as [q|] eqn:Eq; [|discriminate]. cbn [bind] in P. rewrite (IH q p P).
  destruct s; try destruct absolute; cbn in Eq; unfold close, add_part in Eq; destruct (closed q0); cbn in Eq; injection Eq as <-; reflexivity.
Qed.
Lemma geometry_ok c0 args0 a v l svgs : decode (c0, args0) = Some (Move a v) -> map decode l = map Some svgs ->
  Forall supported svgs -> closes_last svgs ->
  exists p, to_geometry ((c0, args0) :: l) = Ok (Some p) /\ drawn_as p (picture (Move a v :: svgs)).
Proof.
  intros D0 D F C.
  assert (E : Ascii.eqb (lower c0) "m" = true /\ exists x y, args0 = [x; y] /\ v = V x y).
  { destruct c0 as [[] [] [] [] [] [] [] []]; cbn in D0; try discriminate D0;
    (destruct args0 as [|a1 args]; [|destruct args as [|a2 args]; [|destruct args as [|a3 args]; [|destruct args as [|a4 args];
      [|destruct args as [|a5 args]; [|destruct args as [|a6 args]; [|destruct args as [|a7 args]; [|destruct args]]]]]]]);
    try discriminate D0; injection D0 as <- <-; split; try reflexivity; eauto. }
  destruct E as (E & x & y & -> & Ev). cbn [to_geometry]. rewrite E. cbn [vector_of bind].
  rewrite (do_svgs_ok l svgs D F). rewrite <- Ev.
  destruct (new_draw_ok v (map command_of svgs)) as (p & P).
  { apply Forall_map. revert F. apply Forall_impl. exact svg_drawable. }
  { apply svg_roundable. }
  exists p. rewrite P. split; [reflexivity|].
  assert (T : picture (Move a v :: svgs) = strokes (Nib v v None None) svgs).
  { unfold picture. cbn [strokes step fst snd app]. unfold target. cbn [at_ vx vy]. destruct a; [reflexivity|].
    subst v. cbn [vx vy]. rewrite !Rplus_0_l. reflexivity. }
  rewrite T. destruct (strokes_trace svgs F C (Nib v v None None)) as (Q & Ln). cbn [home at_] in Q, Ln.
  pose proof (draw_parts svgs F C (new_path v) p eq_refl P) as PP. cbn [new_path parts p0 app] in PP.
  destruct (draw_follows v (map command_of svgs) p) as (FL & FO); [apply Forall_map; revert F; apply Forall_impl; exact svg_drawable|exact P|].
  assert (P0 : p0 p = v) by (rewrite (draw_p0 _ _ _ P); reflexivity).
  split; [rewrite PP, Q, !map_length, combine_length, Ln; lia|].
  intros i st H. rewrite Q in H. rewrite nth_error_map in H. destruct (nth_error (combine svgs _) i) as [[c [s e]]|] eqn:K; [|discriminate]. cbn in H. injection H as <-.
  apply nth_combine in K. cbn [fst snd] in K. destruct K as (K1 & K2). destruct (FO i s e K2) as (S1 & S2).
  apply part_geometry; auto.
  - rewrite Forall_forall in F. apply F. exact (nth_error_In _ _ K1).
  - rewrite PP, nth_error_map, K1, P0. reflexivity.
  - intros j k _ j' k' J. rewrite PP, nth_error_map in J. destruct (nth_error svgs (i + 1)) as [c'|]; [|discriminate]. cbn in J.
    destruct c'; cbn in J; try discriminate; try destruct absolute; injection J as <- <-; reflexivity.
Qed.

(** ** Where the claim fails *)
Lemma vertical_refuted : exists l svgs p, map decode l = map Some svgs /\ svgs = [Move true (V 1 2); Vertical true 5] /\
  to_geometry l = Ok (Some p) /\ ~ drawn_as p (picture svgs).
Proof.
  exists [("M"%char, [1; 2]); ("V"%char, [5])]. eexists. exists (Path (V 1 2) [Linear (PLine (V 0 5) true) (plain None false)] false).
  split; [|split; [reflexivity|split; [reflexivity|]]]; [reflexivity|].
  intros (_ & H). specialize (H 0%nat _ eq_refl). cbn in H. injection H as H1. lra.
Qed.
Lemma subpath_refuted : exists l svgs p, map decode l = map Some svgs /\ svgs = [Move true (V 0 0); Move true (V 5 5); Line true (V 6 6)] /\
  to_geometry l = Ok (Some p) /\ ~ drawn_as p (picture svgs).
Proof.
  exists [("M"%char, [0; 0]); ("M"%char, [5; 5]); ("L"%char, [6; 6])]. eexists. exists (Path (V 0 0) [Linear (PLine (V 6 6) true) (plain None false)] false).
  split; [|split; [reflexivity|split; [reflexivity|]]]; [reflexivity|].
  intros (_ & H). specialize (H 0%nat _ eq_refl). cbn in H. injection H as H1. lra.
Qed.
Lemma after_close_refuted : exists l svgs p, map decode l = map Some svgs /\ svgs = [Move true (V 0 0); Line true (V 6 6); ClosePath; Line true (V 7 8)] /\
  to_geometry l = Ok (Some p) /\ ~ drawn_as p (picture svgs).
Proof.
  exists [("M"%char, [0; 0]); ("L"%char, [6; 6]); ("z"%char, []); ("L"%char, [7; 8])]. eexists.
  exists (Path (V 0 0) [Linear (PLine (V 6 6) true) (plain None false); Linear (PLine (V 0 0) true) (plain None false)] true).
  split; [|split; [reflexivity|split; [reflexivity|]]]; [reflexivity|].
  intros (H & _). cbn in H. discriminate H.
Qed.
(** The smooth curves are never drawn. *)
Lemma smooth_cubic_raises p c args s : decode (c, args) = Some s -> (exists a p2 p3, s = SmoothCubic a p2 p3) -> do_svg p c args = Raise TypeError.
Proof.
  intros D (a & p2 & p3 & ->). destruct c as [[] [] [] [] [] [] [] []]; cbn in D; try discriminate D;
    (destruct args as [|a1 args]; [|destruct args as [|a2 args]; [|destruct args as [|a3 args]; [|destruct args as [|a4 args];
      [|destruct args as [|a5 args]; [|destruct args as [|a6 args]; [|destruct args as [|a7 args]; [|destruct args]]]]]]]);
    try discriminate D; reflexivity.
Qed.
Lemma smooth_quadratic_raises p c args s : decode (c, args) = Some s -> (exists a p2, s = SmoothQuadratic a p2) -> do_svg p c args = Raise TypeError.
Proof.
  intros D (a & p2 & ->). destruct c as [[] [] [] [] [] [] [] []]; cbn in D; try discriminate D;
    (destruct args as [|a1 args]; [|destruct args as [|a2 args]; [|destruct args as [|a3 args]; [|destruct args as [|a4 args];
      [|destruct args as [|a5 args]; [|destruct args as [|a6 args]; [|destruct args as [|a7 args]; [|destruct args]]]]]]]);
    try discriminate D; reflexivity.
Qed.
Lemma no_move c args l : Ascii.eqb (lower c) "m" = false -> to_geometry ((c, args) :: l) = Raise NameError.
Proof. intro H. cbn. rewrite H. reflexivity. Qed.
From Verif Require Import ProofSvgPath.
Lemma traverse_numbers (l : list (ascii * list R)) :
  traverse (fun c : svg_command R => bind (traverse number (snd c)) (fun args => Ok (fst c, args))) (map numbers l) = Ok l.
Proof.
  induction l as [|[c g] l IH]; [reflexivity|]. cbn [map traverse].
  assert (G : traverse number (snd (numbers (c, g))) = Ok g).
  { cbn [numbers snd]. clear. induction g as [|x g IH]; [reflexivity|]. cbn. cbn in IH. rewrite IH. reflexivity. }
  rewrite G. cbn [bind]. rewrite IH. reflexivity.
Qed.
Lemma text_geometry float_parse s (items : list item) ws fuel c0 args0 a v l svgs :
  spaced s (concat ws) -> Forall2 (spells (reads float_parse)) items ws -> Forall well_formed items ->
  Forall (fun i => ~ smooth_quadratic (fst i)) items -> (length s <= fuel)%nat ->
  concat (map meaning items) = (c0, args0) :: l -> decode (c0, args0) = Some (Move a v) -> map decode l = map Some svgs ->
  Forall supported svgs -> closes_last svgs ->
  exists p, from_xml float_parse fuel s = Ok (Some p) /\ drawn_as p (picture (Move a v :: svgs)).
Proof.
  intros Sp F W T L E D0 D Su C. unfold from_xml. rewrite (parse_ok float_parse s items ws Sp F W T fuel L). cbn [bind].
  rewrite traverse_numbers. cbn [bind]. rewrite E. exact (geometry_ok c0 args0 a v l svgs D0 D Su C).
Qed.
