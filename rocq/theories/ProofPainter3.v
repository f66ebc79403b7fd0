(** Proofs about the painters: counter examples, arcs, TeX, pens. *)
From Coq Require Import Reals String Ascii List ZArith Bool Lra Lia.
From Flocq Require Import Core.
From Verif Require Import Base ModelFormula ModelMeasure ModelXml ModelVector ModelTransformation ModelLine ModelBezier ProofXml.
From Verif Require ModelScene.
Import ModelScene(position, PVector, PName, PNumber, coordinates, cast_position).
From Verif Require Import ModelPainter SpecPainter ProofPainter ProofPainter2.
Import ListNotations.
Local Open Scope R_scope.

(** ** Arcs *)

Lemma trunc_near x : x - 1 < IZR (Ztrunc x) < x + 1.
Proof.
  destruct (Rle_or_lt 0 x).
  - rewrite Ztrunc_floor by auto. pose proof (Zfloor_lb x). pose proof (Zfloor_ub x). lra.
  - rewrite Ztrunc_ceil by lra. pose proof (Zceil_ub x). pose proof (Zceil_lb x). lra.
Qed.

Theorem arc_close v rx ry start stop : Rabs (stop - start) < 360 -> exists m s,
  qt_arc v rx ry start stop = FArc v rx ry m s /\ (0 <= s <= 5760)%Z /\
  Rabs (IZR m / 16 - start) < 1 / 16 /\
  (start <= stop -> Rabs (IZR (m + s) / 16 - stop) < 1 / 16) /\
  (stop <= start - 1 / 8 -> Rabs (IZR (m + s) / 16 - (stop + 360)) < 1 / 16).
Proof.
  intros L. unfold qt_arc, truncate. destruct (Rleb _ _) eqn:E; [apply Rleb_true in E; lra|]. clear E.
  apply Rabs_def2 in L.
  set (m := Ztrunc (start * 16)). set (n := Ztrunc (stop * 16)). cbn zeta.
  assert (Hm := trunc_near (start * 16)). assert (Hn := trunc_near (stop * 16)). fold m in Hm. fold n in Hn.
  assert (Mono : start <= stop -> (m <= n)%Z) by (intros; apply Ztrunc_le; lra).
  assert (Mono2 : stop <= start -> (n <= m)%Z) by (intros; apply Ztrunc_le; lra).
  assert (D : (n - m <= 5760 /\ -5760 <= n - m)%Z).
  { assert (X : start * 16 < stop * 16 + 5760) by lra. assert (Y : stop * 16 < start * 16 + 5760) by lra.
    assert (T : forall x y, x < y + 5760 -> (Ztrunc x - Ztrunc y <= 5760)%Z).
    { clear. intros x y H. destruct (Rle_or_lt 0 y), (Rle_or_lt 0 x).
      - rewrite !Ztrunc_floor by lra. pose proof (Zfloor_lb x). pose proof (Zfloor_ub y).
        cut (Zfloor x - Zfloor y < 5761)%Z; [lia|]. apply lt_IZR. rewrite minus_IZR. lra.
      - rewrite (Ztrunc_floor y), (Ztrunc_ceil x) by lra. assert (0 <= Zfloor y)%Z by (apply Zfloor_lub; lra).
        assert (Zceil x <= 0)%Z by (apply Zceil_glb; lra). lia.
      - rewrite (Ztrunc_ceil y), (Ztrunc_floor x) by lra. pose proof (Zfloor_lb x). pose proof (Zceil_ub y).
        apply le_IZR. rewrite minus_IZR. lra.
      - rewrite !Ztrunc_ceil by lra. pose proof (Zceil_lb x). pose proof (Zceil_ub y).
        cut (Zceil x - Zceil y < 5761)%Z; [lia|]. apply lt_IZR. rewrite minus_IZR. lra. }
    split; [exact (T _ _ Y)|]. pose proof (T _ _ X). fold m n in H. lia. }
  assert (Hs : Rabs (IZR m / 16 - start) < 1 / 16) by (apply Rabs_def1; lra).
  destruct (n - m <? 0)%Z eqn:S_.
  - apply Z.ltb_lt in S_. exists m, (5760 + (n - m))%Z. split; [reflexivity|]. split; [lia|]. split; [exact Hs|].
    replace (m + (5760 + (n - m)))%Z with (5760 + n)%Z by lia. rewrite plus_IZR. split.
    + intros H. specialize (Mono H). lia.
    + intros H. apply Rabs_def1; lra.
  - apply Z.ltb_ge in S_. exists m, (n - m)%Z. split; [reflexivity|]. split; [lia|]. split; [exact Hs|].
    replace (m + (n - m))%Z with n by lia. split.
    + intros H. apply Rabs_def1; lra.
    + intros H. exfalso. assert (IZR m <= IZR n) by (apply IZR_le; lia). lra.
Qed.

Lemma cos90 : degrees_cos 90 = 0.
Proof. unfold degrees_cos. replace (90 * PI / 180) with (PI / 2) by field. apply cos_PI2. Qed.
Lemma sin90 : degrees_sin 90 = 1.
Proof. unfold degrees_sin. replace (90 * PI / 180) with (PI / 2) by field. apply sin_PI2. Qed.
Lemma cos180 : degrees_cos 180 = -1.
Proof. unfold degrees_cos. replace (180 * PI / 180) with PI by field. apply cos_PI. Qed.
Lemma sin180 : degrees_sin 180 = 0.
Proof. unfold degrees_sin. replace (180 * PI / 180) with PI by field. apply sin_PI. Qed.

Lemma trunc_small x : 0 <= x < 1 -> Ztrunc x = 0%Z.
Proof. intros H. rewrite Ztrunc_floor by lra. apply Zfloor_imp. simpl. lra. Qed.

Theorem arc_thin : let start := 1 / 20 in let stop := 0 in
  swept start stop 180 /\ forall y, inked (qt_arc (V 0 0) 1 1 start stop) y -> y = V 1 0.
Proof.
  cbn zeta. split; [right; right; lra|]. intros y. unfold qt_arc, truncate. destruct (Rleb _ _) eqn:E.
  { apply Rleb_true in E. rewrite Rabs_left in E by lra. lra. }
  rewrite (trunc_small (1 / 20 * 16)), (trunc_small (0 * 16)) by lra. cbn. intros (a&H&->).
  assert (a = 0) by lra. subst a. destruct trig_zero as [-> ->]. f_equal; ring.
Qed.

(** ** Counter examples for Qt *)

Section Ink.
Variables style ink : Type.
Variable s : style.
Variable i : ink.
Notation gs := (fun _ : style => Ok i).
Notation flip := (fun v : vec => Ok (placed 0 1 0 (-1) v)).
Notation one := (fun x : R => x * 1).
Notation at_ x y := (PVector (V x y)).

Lemma apply_identity v : apply (scale 1 1) v = v.
Proof. apply vec_eq; cbn; ring. Qed.
Lemma cast_id x y : cast_position (scale 1 1) [] (at_ x y) = Ok (V x y).
Proof. cbn [cast_position]. now rewrite apply_identity. Qed.

Theorem ellipse_angle : exists m,
  qt_item style ink gs (scale 1 1) [] flip one s false (SEllipse (at_ 0 0) 2 1 90 0 360) = Ok m /\
  ~ depicts (placed 0 1 0 (-1)) (cast_position (scale 1 1) []) (SEllipse (at_ 0 0) 2 1 90 0 360) m.
Proof.
  eexists. split.
  { unfold qt_item, qt_cast. rewrite cast_id. unfold drawn. cbn [bind]. reflexivity. }
  intros [D _]. destruct (proj2 (D (V 0 (-2)))) as (m&[<-|[]]&H).
  - exists (V 0 2). split; [|apply vec_eq; cbn; ring]. exists (V 0 0), 0. split; [apply cast_id|]. split; [right; left; lra|].
    destruct trig_zero as [-> ->]. rewrite cos90, sin90. apply vec_eq; cbn; ring.
  - unfold qt_arc in H. destruct (Rleb _ _) eqn:E.
    + destruct H as (a&H). injection H as _ H. cbn in H. unfold degrees_sin in H. pose proof (SIN_bound (a * PI / 180)). lra.
    + assert (360 <= Rabs (360 - 0)) by (rewrite Rabs_pos_eq; lra). apply Rleb_true in H0. congruence.
Qed.

Theorem path_open : exists m, let p := SPath (at_ 0 0) [LinearPart (at_ 1 0); LinearPart (at_ 1 1)] true in
  qt_item style ink gs (scale 1 1) [] flip one s false p = Ok m /\
  ~ depicts (placed 0 1 0 (-1)) (cast_position (scale 1 1) []) p m.
Proof.
  eexists. cbn zeta. split.
  { unfold qt_item, qt_cast, qt_parts, qt_cast. rewrite !cast_id. unfold drawn. cbn [bind]. reflexivity. }
  intros [D _]. destruct (proj2 (D (V (1/2) (-1/2)))) as (m&[<-|[]]&H).
  - exists (V (1/2) (1/2)). split; [|apply vec_eq; cbn; lra]. exists (V 0 0). split; [apply cast_id|]. right. split; auto.
    exists (V 1 1). split.
    + exists (V 1 0). split; [apply cast_id|]. exists (V 1 1). split; [apply cast_id|]. reflexivity.
    + exists (1/2). split; [lra|]. apply vec_eq; cbn; lra.
  - cbn [inked fst] in H. rewrite !chain_cons in H. destruct H as [(t&T&H)|[(t&T&H)|H]].
    + apply (f_equal vy) in H. cbn in H. lra.
    + apply (f_equal vx) in H. cbn in H. lra.
    + exact (chain_one _ _ H).
Qed.

Theorem path_curved t c place len sh (gs : style -> result ink) show p v l closed q r :
  cast_position t c p = Ok v -> is_ok (place v) ->
  qt_item style ink gs t c place len sh show (SPath p (QuadraticPart q r :: l) closed) = Raise UnboundLocalError.
Proof. intros E [w W]. unfold qt_item, qt_cast. rewrite E. cbn [bind]. rewrite W. reflexivity. Qed.

Theorem quadratic_twice : exists m, let q := SQuadratic (at_ 0 0) (at_ 1 1) (at_ 2 0) in
  qt_item style ink gs (scale 2 2) [] flip one s false q = Ok m /\
  ~ depicts (placed 0 1 0 (-1)) (cast_position (scale 2 2) []) q m.
Proof.
  eexists. cbn zeta. split.
  { unfold qt_item, qt_cast, cubic_positions. cbn [cast_position traverse bind]. unfold to_cubic, vdiv. rewrite Reqb_3.
    cbn [bind map c0 c1 c2 c3p q0 q1 q2]. unfold cast_all. cbn [traverse bind cast_position]. unfold qt_cubic, drawn. cbn [bind app]. reflexivity. }
  intros [D _]. destruct (proj1 (D (V 8 0))) as (x&C&H).
  - eexists. split; [left; reflexivity|]. cbn [fst inked]. exists 1. split; [lra|]. apply vec_eq; cbn; ring.
  - destruct C as (v&w&y&C1&C2&C3&C). cbn [cast_position] in C1, C2, C3. injection C1 as <-. injection C2 as <-. injection C3 as <-.
    destruct C as (t&T&->). apply (f_equal vx) in H. cbn in H. lra.
Qed.

Theorem svg_mirror : exists m, let q := SCircle (at_ 0 0) 1 0 90 in
  qt_item style ink gs (scale 1 1) [] (to_svg_place 1) (to_svg_length 1) s false q = Ok m /\
  ~ depicts (placed 0 1 0 1) (cast_position (scale 1 1) []) q m.
Proof.
  eexists. cbn zeta. split.
  { unfold qt_item, qt_cast. rewrite cast_id. unfold drawn. cbn [bind to_svg_place]. reflexivity. }
  intros [D _]. destruct (proj2 (D (V 0 1))) as (m&[<-|[]]&H).
  - exists (V 0 1). split; [|apply vec_eq; cbn; ring]. exists (V 0 0), 90. split; [apply cast_id|]. split; [right; left; lra|].
    rewrite cos90, sin90. apply vec_eq; cbn; ring.
  - cbn [fst] in H. apply arc_swept in H.
    + destruct H as (a&W&H). apply (f_equal vy) in H. cbn in H. unfold to_svg_length in H.
      destruct W as [W|[W|[W _]]]; [rewrite Rabs_pos_eq in W; lra| |lra].
      assert (0 <= degrees_sin a); [|lra]. unfold degrees_sin. pose proof PI_RGT_0. apply sin_ge_0; nra.
    + right. split; [exists 0%Z; lra | exists 1440%Z; lra].
Qed.

(** ** Counter examples for the files *)

Theorem svg_page : exists m, let b := Box (Itv 0 10) (Itv 0 10) in
  svg_item style ink gs (scale 1 1) [] b s (SSegment (at_ 0 0) (at_ 10 10)) = Ok m /\
  m <> [] /\ forall x y, In x m -> inked (fst x) y -> vy y < 0.
Proof.
  eexists. cbn zeta. split.
  { unfold svg_item, cast_all. cbn [traverse]. rewrite !svg_place, !cast_id. unfold drawn. cbn [bind]. reflexivity. }
  split; [discriminate|]. intros x y [<-|[]]. cbn [fst inked]. intros (t&T&->). cbn. nra.
Qed.
Theorem svg_lost : (exists m, svg_item style ink gs (scale 1 1) [] (Box (Itv 0 0) (Itv 0 0)) s (SCircle (at_ 0 0) 1 0 360) = Ok m /\
    ~ exists x y, In x m /\ inked (fst x) y) /\
  svg_item style ink gs (scale 1 1) [] (Box (Itv 0 0) (Itv 0 0)) s (SCubic (at_ 0 0) (at_ 1 0) (at_ 1 1) (at_ 0 1)) = Ok [].
Proof.
  split.
  - eexists. split. { unfold svg_item. rewrite svg_place, cast_id. unfold plain. cbn [bind]. reflexivity. }
    intros (x&y&[<-|[]]&H). exact H.
  - unfold svg_item, cast_all. cbn [traverse]. rewrite !svg_place, !cast_id. reflexivity.
Qed.

(** Nothing is refused. *)
Lemma simple_defined t c sh (gs : style -> result ink) st j : basic sh -> gs st = Ok j ->
  Forall (fun p => is_ok (cast_position t c p)) (positions sh) ->
  is_ok (dxf_item style ink gs t c st sh) /\ is_ok (mpl_item style ink gs t c st sh) /\ forall b, is_ok (pdf_item style ink t c b st sh).
Proof.
  intros B G F. apply known_cast in F as (m&E&N).
  pose proof (place_defined t c _ _ _ _ _ (dxf_place t c) _ _ E) as E1.
  assert (E2 := fun b => place_defined t c _ _ _ _ _ (pdf_place_ok t c b) _ _ E).
  destruct sh; try (exfalso; exact B); cbn [positions] in *; unfold dxf_item, mpl_item, pdf_item, cast_all, plain, drawn; rewrite ?G.
  - destruct m as [|v [|]]; try discriminate N. simpl in E. rewrite dxf_place. destruct (cast_position t c p) eqn:P; [|discriminate E].
    split; [eexists; reflexivity|]. split; [eexists; reflexivity|]. intros b. rewrite pdf_place_ok, P. eexists; reflexivity.
  - destruct m as [|v [|w [|]]]; try discriminate N. rewrite E, E1. split; [eexists; reflexivity|]. split; [eexists; reflexivity|].
    intros b. rewrite E2. eexists; reflexivity.
  - destruct m as [|v [|w [|x [|y [|]]]]]; try discriminate N. rewrite E, E1. split; [eexists; reflexivity|]. split; [eexists; reflexivity|].
    intros b. rewrite E2. eexists; reflexivity.
Qed.

(** Circles *)
Theorem circles_wrong radius start stop t c p v b : cast_position t c p = Ok v ->
  dxf_item style ink gs t c s (SCircle p radius start stop) = Ok [] /\
  (exists w, pdf_item style ink t c b s (SCircle p radius start stop) = Ok [(FDot w (2 * mm), None)]) /\
  mpl_item style ink gs t c s (SCircle p radius start stop) = Ok [(FDot v 0.5, None)].
Proof.
  intros E. split; [reflexivity|]. split.
  - unfold pdf_item. rewrite pdf_place_ok, E. eexists; reflexivity.
  - unfold mpl_item. rewrite E. reflexivity.
Qed.
Theorem pdf_corner b : let corner := placed (cm * (1 - inf (bx b))) (0.7 * cm) (cm * (1 - inf (by_ b))) (0.7 * cm) (V (inf (bx b)) (inf (by_ b))) in
  corner = V cm cm <-> inf (bx b) = 0 /\ inf (by_ b) = 0.
Proof.
  cbn zeta. assert (C : 0 < cm) by (unfold cm; lra). unfold placed. cbn. split.
  - intros H. injection H as H1 H2. split; nra.
  - intros [-> ->]. f_equal; ring.
Qed.
End Ink.

(** ** TeX *)

Lemma digit_of_value c d : digit_value c = Some d -> digit_of c = Some (Z.of_N d).
Proof. destruct c as [[] [] [] [] [] [] [] []]; vm_compute; intros E; try discriminate E; injection E as <-; reflexivity. Qed.

Lemma whole_digits s : Forall is_digit s -> forall acc r n, (forall c r', r = c :: r' -> digit_of c = None) -> read_digits acc s = Some n ->
  whole_part (Z.of_N acc) (s ++ r) = Some (Z.of_N n, r).
Proof.
  induction 1 as [|c s C F IH]; intros acc r n Hr.
  - intros [= <-]. destruct r as [|c r]; [reflexivity|]. simpl. now rewrite (Hr c r eq_refl).
  - cbn [read_digits app whole_part]. destruct (digit_value c) as [d|] eqn:D; [|destruct (C D)].
    rewrite (digit_of_value _ _ D). intros H. rewrite <- (IH _ _ _ Hr H). f_equal. lia.
Qed.

Lemma int_str_digits z : (0 <= z)%Z -> exists c s, int_str z = c :: s /\ is_digit c /\ forall r, (forall c r', r = c :: r' -> digit_of c = None) ->
  whole_part 0 (int_str z ++ r) = Some (z, r).
Proof.
  intros Z0. destruct z as [|p|p]; [| |lia].
  - exists "0"%char, []. split; [reflexivity|]. split; [discriminate|]. intros r Hr. cbn. destruct r as [|c r]; [reflexivity|]. simpl.
    now rewrite (Hr c r eq_refl).
  - cbn [int_str]. destruct (nat_str_ok (Npos p)) as (N&F&Rd). destruct (nat_str (Npos p)) as [|c s]; [contradiction|].
    inversion F as [|? ? C F']; subst. exists c, s. split; [reflexivity|]. split; [exact C|]. intros r Hr.
    cbn [read_nat] in Rd. destruct (digit_value c) as [d|] eqn:D; [|discriminate Rd].
    change ((c :: s) ++ r) with (c :: (s ++ r)). cbn [whole_part]. rewrite (digit_of_value _ _ D).
    change (10 * 0 + Z.of_N d)%Z with (Z.of_N d). exact (whole_digits s F' d r _ Hr Rd).
Qed.

Lemma one_digit d : (0 <= d < 10)%Z -> exists c, int_str d = [c] /\ digit_of c = Some d.
Proof.
  intros H. assert (d = 0 \/ d = 1 \/ d = 2 \/ d = 3 \/ d = 4 \/ d = 5 \/ d = 6 \/ d = 7 \/ d = 8 \/ d = 9)%Z as D by lia.
  repeat destruct D as [->|D]; try subst d; eexists; split; reflexivity.
Qed.

Lemma hundredths_digit c s : is_digit c -> hundredths (c :: s) =
  match whole_part 0 (c :: s) with
  | Some (n, ["."%char; d; u]) =>
      match digit_of d, digit_of u with Some d, Some u => Some (1 * (100 * n + 10 * d + u))%Z | _, _ => None end
  | _ => None
  end.
Proof. unfold is_digit. destruct c as [[] [] [] [] [] [] [] []]; intros D; try reflexivity. now destruct D. Qed.

Lemma unsigned_ok n : (0 <= n)%Z -> exists c s, int_str (n / 100) ++ lit "." ++ two_digits (n mod 100) = c :: s /\ is_digit c /\
  whole_part 0 (c :: s) = Some ((n / 100)%Z, "."%char :: two_digits (n mod 100)) /\
  exists d u, two_digits (n mod 100) = [d; u] /\ digit_of d = Some (n mod 100 / 10)%Z /\ digit_of u = Some ((n mod 100) mod 10)%Z.
Proof.
  intros Hn. assert (0 <= n / 100)%Z as H by (apply Z.div_pos; lia).
  destruct (int_str_digits _ H) as (c&s&E&C&W).
  exists c, (s ++ lit "." ++ two_digits (n mod 100))%list. split; [now rewrite E|]. split; [exact C|]. split.
  - specialize (W (lit "." ++ two_digits (n mod 100))%list). rewrite E in W. apply W. intros c' r' Q. injection Q as <- _. reflexivity.
  - assert (M := Z.mod_pos_bound n 100 ltac:(lia)).
    destruct (one_digit (n mod 100 / 10)) as (d&D1&D2). { split; [apply Z.div_pos; lia | apply Z.div_lt_upper_bound; lia]. }
    destruct (one_digit ((n mod 100) mod 10)) as (u&U1&U2). { apply Z.mod_pos_bound; lia. }
    exists d, u. unfold two_digits. rewrite D1, U1. auto.
Qed.

Lemma digits_sum n : (100 * (n / 100) + 10 * (n mod 100 / 10) + (n mod 100) mod 10)%Z = n.
Proof. pose proof (Z.div_mod n 100 ltac:(lia)). pose proof (Z.div_mod (n mod 100) 10 ltac:(lia)). lia. Qed.

Theorem format2_ok x : exists n, hundredths (format2 x) = Some n /\ Rabs (IZR n / 100 - x) <= 0.005.
Proof.
  unfold format2. set (n := ZnearestE (Rabs x * 100)). cbn zeta.
  assert (A := Rabs_pos x).
  assert (Near : Rabs (Rabs x * 100 - IZR n) <= / 2) by apply Znearest_half.
  assert (Hn : (0 <= n)%Z).
  { cut (-1 < n)%Z; [lia|]. apply lt_IZR. apply Rabs_le_inv in Near. lra. }
  destruct (unsigned_ok n Hn) as (c&s&E&C&W&d&u&T&D&U). rewrite E. rewrite T in W.
  unfold Rltb. destruct (Rlt_dec x 0).
  - exists (- n)%Z. split.
    + change (lit "-" ++ c :: s)%list with ("-"%char :: c :: s). unfold hundredths. rewrite W, D, U. f_equal. rewrite <- (digits_sum n) at 4. lia.
    + rewrite opp_IZR. rewrite (Rabs_left x) in Near by auto. apply Rabs_le_inv in Near. apply Rabs_le. lra.
  - exists n. split.
    + rewrite app_nil_l, hundredths_digit by exact C. rewrite W, D, U. f_equal. rewrite <- (digits_sum n) at 4. lia.
    + rewrite (Rabs_pos_eq x) in Near by lra. apply Rabs_le_inv in Near. apply Rabs_le. lra.
Qed.

Lemma shows_ok p : written_position p -> shows p (format_position p).
Proof.
  destruct p as [v|n|z]; cbn [format_position shows written_position]; intros H; auto.
  destruct (format2_ok (vx v)) as (m&M1&M2), (format2_ok (vy v)) as (n&N1&N2).
  exists (V (IZR m / 100) (IZR n / 100)). split; [|split; [exact M2 | exact N2]].
  exists (format2 (vx v)), (format2 (vy v)), m, n. auto.
Qed.

Theorem tex_item_ok style sh line : basic sh -> Forall written_position (positions sh) ->
  tex_item (Ok style) sh = Ok line -> tikz_line style sh line.
Proof.
  intros B F H. destruct sh; try (exfalso; exact B); cbn [positions] in F; injection H as <-; cbn zeta beta iota delta [tikz_line].
  - apply Forall_inv, shows_ok in F. exists (format_position p). split; [exact F | reflexivity].
  - inversion_clear F as [|? ? F1 F0]. inversion_clear F0 as [|? ? F2 _].
    exists (format_position p), (format_position q). split; [now apply shows_ok|]. split; [now apply shows_ok|]. reflexivity.
  - inversion_clear F as [|? ? F1 F0]. inversion_clear F0 as [|? ? F2 F]. inversion_clear F as [|? ? F3 F0]. inversion_clear F0 as [|? ? F4 _].
    exists (format_position p), (format_position q), (format_position r), (format_position s).
    split; [now apply shows_ok|]. split; [now apply shows_ok|]. split; [now apply shows_ok|]. split; [now apply shows_ok|]. reflexivity.
Qed.

Lemma traverse_nth A B (g : A -> result B) l m : traverse g l = Ok m -> forall i x, nth_error l i = Some x ->
  exists y, nth_error m i = Some y /\ g x = Ok y.
Proof.
  revert m. induction l as [|a l IH]; simpl; intros m; [intros [= <-] [] x Q; discriminate Q|].
  destruct (g a) as [b|] eqn:E; [|discriminate]. cbn [bind]. destruct (traverse g l) as [m1|]; [|discriminate]. intros [= <-] [|i] x Q.
  - injection Q as <-. exists b. auto.
  - exact (IH m1 eq_refl i x Q).
Qed.
Lemma traverse_length A B (g : A -> result B) l m : traverse g l = Ok m -> List.length m = List.length l.
Proof.
  revert m. induction l as [|a l IH]; simpl; intros m; [intros [= <-]; auto|].
  destruct (g a); [|discriminate]. cbn [bind]. destruct (traverse g l) as [m1|]; [|discriminate]. intros [= <-]. simpl. now rewrite (IH m1).
Qed.

(** The lines of a figure: the coordinates, then the items. *)
Theorem tex_figure_ok c l lines : tex_figure c l = Ok lines ->
  List.length lines = (List.length c + List.length l)%nat /\
  (forall i n v, nth_error c i = Some (n, v) -> exists line, nth_error lines i = Some line /\ tikz_coordinate n v line) /\
  (forall i style sh, nth_error l i = Some (Ok style, sh) -> basic sh -> Forall written_position (positions sh) ->
     exists line, nth_error lines (List.length c + i) = Some line /\ tikz_line style sh line).
Proof.
  intros H. apply bind_ok in H as (m&E&H). injection H as <-. split; [|split].
  - rewrite app_length, map_length, (traverse_length _ _ _ _ _ E). reflexivity.
  - intros i n v N. assert (i < List.length c)%nat by (apply nth_error_Some; congruence).
    rewrite nth_error_app1 by (rewrite map_length; auto). rewrite nth_error_map, N. eexists. split; [reflexivity|].
    exists (format_position (PVector v)). split; [apply shows_ok; exact I|]. reflexivity.
  - intros i style sh N B F. destruct (traverse_nth _ _ _ _ _ E i _ N) as (line&L1&L2). exists line.
    rewrite nth_error_app2 by (rewrite map_length; lia). rewrite map_length. replace (_ + i - _)%nat with i by lia.
    split; auto. now apply tex_item_ok.
Qed.

Theorem tex_transformation : exists line, tex_item (Ok []) (SText (PVector (V 1 1)) []) = Ok line /\
  cast_position (scale 2 2) [] (PVector (V 1 1)) = Ok (V 2 2) /\ ~ tikz_line [] (SText (PVector (V 2 2)) []) line.
Proof.
  eexists. split; [reflexivity|]. split; [cbn [cast_position]; f_equal; apply vec_eq; cbn; ring|].
  intros (s&(w&(x&y&m&n&->&X&Y&->)&W1&W2)&L).
  assert (Q : format2 1 = lit "1.00").
  { unfold format2. replace (ZnearestE (Rabs 1 * 100)) with 100%Z.
    - unfold Rltb. destruct (Rlt_dec 1 0); [lra|]. reflexivity.
    - rewrite Rabs_pos_eq by lra. symmetry. rewrite Rmult_1_l. apply (@Zrnd_IZR ZnearestE _). }
  unfold format_position in L. cbn [vx vy] in L. rewrite Q in L.
  assert (E : x = lit "1.00"); [|subst x; vm_compute in X; injection X as <-; cbn [vx] in W1; apply Rabs_le_inv in W1; lra].
  apply app_inv_head in L. rewrite <- !app_assoc in L. apply app_inv_head in L.
  clear W1 W2. revert L X.
  assert (NC : forall x m, hundredths x = Some m -> ~ In ","%char x).
  { clear. intros x m H I. unfold hundredths in H.
    destruct (match x with "-"%char :: s => ((-1)%Z, s) | _ => (1%Z, x) end) as [sg u] eqn:U.
    assert (J : In ","%char u).
    { destruct x as [|c x]; [destruct I|]. destruct c as [[] [] [] [] [] [] [] []]; injection U as _ <-; try exact I. destruct I as [I|I]; [discriminate I | exact I]. }
    assert (K : forall u acc n r, In ","%char u -> whole_part acc u = Some (n, r) -> In ","%char r).
    { clear. induction u as [|c u IH]; intros acc n r J; [destruct J|]. simpl. destruct (digit_of c) eqn:D.
      - destruct J as [->|J]; [discriminate D|]. apply IH; auto.
      - intros [= _ <-]. exact J. }
    destruct (whole_part 0 u) as [[n r]|] eqn:W; [|discriminate H]. apply (K _ _ _ _ J) in W.
    destruct r as [|c1 [|c2 [|c3 [|]]]]; try discriminate H; try (destruct c1 as [[] [] [] [] [] [] [] []]; discriminate H).
    destruct c1 as [[] [] [] [] [] [] [] []]; try discriminate H.
    destruct W as [W|[W|[W|[]]]]; [discriminate W| |]; subst; [discriminate H|].
    destruct (digit_of c2); discriminate H. }
  intros L X. apply NC in X. clear - L X.
  destruct x as [|c1 x]; [discriminate L|]. injection L as <- L.
  destruct x as [|c1 x]; [discriminate L|]. injection L as <- L.
  destruct x as [|c1 x]; [discriminate L|]. injection L as <- L.
  destruct x as [|c1 x]; [discriminate L|]. injection L as <- L.
  destruct x as [|c1 x]; [reflexivity|]. injection L as <- L. exfalso. apply X. do 4 right. now left.
Qed.

(** ** Pens *)
From Flocq Require Import BinarySingleNaN.
From Verif Require Import ModelStyle ModelColor.

Theorem pen_style rf s c w q : s_stroke_color s = Some c -> s_fill_color s = None -> to_number rf (s_line_width s) = Ok w ->
  set_pen rf false s q = Ok (QPainter (Pen (Shade c (s_stroke_alpha s)) w (s_stroke_style s) (s_cap_style s) (s_join_style s)) None).
Proof. intros C F W. unfold set_pen. rewrite W, F, C. reflexivity. Qed.
Theorem pen_selected rf s w q : s_fill_color s = None -> to_number rf (s_line_width s) = Ok w ->
  set_pen rf true s q = Ok (QPainter (Pen Red (fmul w (of_int 4)) (s_stroke_style s) (s_cap_style s) (s_join_style s)) None).
Proof. intros F W. unfold set_pen. rewrite W, F. reflexivity. Qed.
Theorem pen_fill rf b s c w q : s_fill_color s = Some c -> to_number rf (s_line_width s) = Ok w -> exists w',
  set_pen rf b s q = Ok (QPainter (Pen (Shade c (s_fill_alpha s)) w' (s_stroke_style s) (s_cap_style s) (s_join_style s)) (Some (Shade c (s_fill_alpha s)))).
Proof. intros F W. unfold set_pen. rewrite W, F. eexists. reflexivity. Qed.
Theorem pen_previous rf s w q : s_stroke_color s = None -> s_fill_color s = None -> to_number rf (s_line_width s) = Ok w ->
  set_pen rf false s q = Ok (QPainter (q_pen q) None).
Proof. intros C F W. unfold set_pen. rewrite W, F, C. reflexivity. Qed.
(** The pen does not depend on what was painted before. *)
Lemma pen_independent rf b s q q' : b = true \/ s_stroke_color s <> None \/ s_fill_color s <> None -> set_pen rf b s q = set_pen rf b s q'.
Proof.
  intros H. unfold set_pen. destruct (to_number rf (s_line_width s)); auto. cbn [bind]. destruct (s_fill_color s); auto.
  destruct b; auto. destruct (s_stroke_color s); auto. destruct H as [H|[H|H]]; try discriminate; contradiction H; auto.
Qed.
Theorem pens_independent rf bt bt' l : Forall (fun x => fst x = true \/ s_stroke_color (snd x) <> None \/ s_fill_color (snd x) <> None) l ->
  forall q q', pens rf bt l q = pens rf bt' l q'.
Proof.
  induction 1 as [|[b s] l H _ IH]; intros q q'; [reflexivity|]. cbn [pens]. cbn in H. rewrite (pen_independent rf b s q q' H).
  destruct (set_pen rf b s q'); auto. cbn [bind]. now rewrite (IH (bt a) (bt' a)).
Qed.
