(** Graphic styles. *)
From Coq Require Import String Ascii List Bool Arith ZArith Lia.
From Flocq Require Import Core BinarySingleNaN.
From Verif Require Import Base ModelFormula ModelMeasure ModelStyle SpecStyle ProofStyle.
From Verif Require ModelColor ModelColorData.
Import ModelColor(float, color, c_name, argument, AInt, AFloat, AText, AColor, AOther, database, getitem, of_int).
Import ListNotations.

(** C55: exactly what a copy keeps *)
Theorem C55_path_partial : forall read_float db black, getitem db (lit "black") = Ok black -> forall s, exists t, clone_style read_float db s = Ok t /\
  s_stroke_style t = s_stroke_style s /\ s_line_width t = s_line_width s /\ s_stroke_color t = s_stroke_color s /\ s_fill_color t = s_fill_color s.
Proof. exact (fun rf db b H s => ex_intro _ _ (conj (clone_path_ok rf db b H s) (conj eq_refl (conj eq_refl (conj eq_refl eq_refl))))). Qed.
Print Assumptions C55_path_partial.
Theorem C55_path_refuted : forall read_float db black, getitem db (lit "black") = Ok black -> forall s,
  clone_style read_float db s = Ok s <-> s_stroke_alpha s = of_int 1 /\ s_fill_alpha s = of_int 1 /\ s_cap_style s = SquareCap /\ s_join_style s = BevelJoin.
Proof. exact clone_path_same. Qed.
Print Assumptions C55_path_refuted.
Theorem C55_bezier_partial : forall read_float db black, getitem db (lit "black") = Ok black -> forall s, exists t, clone_bezier_style read_float db s = Ok t /\
  b_show_control t = b_show_control s /\ b_control_color t = b_control_color s.
Proof. exact (fun rf db b H s => ex_intro _ _ (conj (clone_bezier_ok rf db b H s) (conj eq_refl eq_refl))). Qed.
Print Assumptions C55_bezier_partial.
Theorem C55_bezier_refuted : forall read_float db black, getitem db (lit "black") = Ok black -> forall s,
  clone_bezier_style read_float db s = Ok s <-> b_path s = PathStyle SolidLine (PArg (AFloat (of_int 1))) (Some black) (of_int 1) None (of_int 1) SquareCap BevelJoin.
Proof. exact clone_bezier_same. Qed.
Print Assumptions C55_bezier_refuted.
(** The data base of the package has black *)
Example C55_black : exists db black, ModelColor.fill [] ModelColorData.color_sets = Ok db /\ getitem db (lit "black") = Ok black.
Proof.
  assert (H : match ModelColor.fill [] ModelColorData.color_sets with Ok db => match getitem db (lit "black") with Ok _ => true | _ => false end | _ => false end = true) by (vm_compute; reflexivity).
  destruct (ModelColor.fill [] ModelColorData.color_sets) as [db|]; [|discriminate]. exists db. destruct (getitem db (lit "black")) as [b|] eqn:E; [|discriminate]. exists b. auto.
Qed.

(** C87: the attributes of a new style *)
Theorem C87_path : forall read_float db black, getitem db (lit "black") = Ok black -> forall k s, new_style read_float db k = Ok s <-> made_of read_float db black k s.
Proof. exact made_ok. Qed.
Print Assumptions C87_path.
Theorem C87_bezier : forall read_float db black, getitem db (lit "black") = Ok black -> forall k s, new_bezier_style read_float db k = Ok s <->
  made_of read_float db black k (b_path s) /\ given k (lit "show_control") false (fun v => Ok (to_bool v)) (b_show_control s) /\
  given k (lit "control_color") None (to_color db) (b_control_color s).
Proof. exact bezier_made. Qed.
Print Assumptions C87_bezier.
(** A member can be given by itself or by its number *)
Theorem C87_members :
  (forall v s, to_stroke v = Ok s <-> v = PStroke s \/ v = PArg (AInt (stroke_number s))) /\
  (forall v c, to_cap v = Ok c <-> v = PCap c \/ v = PArg (AInt (cap_number c))) /\
  (forall v j, to_join v = Ok j <-> v = PJoin j \/ v = PArg (AInt (join_number j))).
Proof. exact members_ok. Qed.
Print Assumptions C87_members.
(** show_control follows the truth of the value *)
Theorem C87_truth : forall v, to_bool v = false <-> falsy v.
Proof. exact truth_ok. Qed.
Print Assumptions C87_truth.
(** A setter sets its attribute and no other *)
Theorem C87_setters : forall read_float db s a v t, set_style read_float db s a v = Ok t <->
  converted read_float db a v (attribute_of t a) /\ forall b, b <> a -> attribute_of t b = attribute_of s b.
Proof. exact setters_ok. Qed.
Print Assumptions C87_setters.
Example C87_example : forall read_float, exists s, new_style read_float [(lit "black", ModelColor.Color (of_int 0) (of_int 0) (of_int 0) (Some (lit "black")))]
  [(lit "cap_style", PCap RoundCap); (lit "fill_color", PArg (AText (lit "black")))] = Ok s /\ s_cap_style s = RoundCap /\ s_join_style s = BevelJoin /\ s_fill_color s <> None.
Proof. intro rf. eexists. split; [reflexivity|]. repeat split. discriminate. Qed.

(** C88: the TikZ options of a style *)
Theorem C88_tikz_partial : forall str s c, s_stroke_style s <> DashDotDotLine -> s_stroke_color s = Some c ->
  exists t, tikz_style str s = Ok t /\ exists parts, t = join (lit ", ") ((lit "line width=" ++ str (s_line_width s)) :: parts) /\
    (forall n, c_name c = Some n -> In n parts).
Proof. exact tikz_ok. Qed.
Print Assumptions C88_tikz_partial.
Theorem C88_dash_refuted : forall str s, s_stroke_style s = DashDotDotLine -> tikz_style str s = Raise KeyError.
Proof. exact tikz_dash. Qed.
Print Assumptions C88_dash_refuted.
(** A colour without a name, such as any colour given by its components or its text, is not drawn *)
Theorem C88_color_refuted : forall str st w al f fa ca jo c d,
  c_name c = None -> c_name d = None -> tikz_style str (PathStyle st w (Some c) al f fa ca jo) = tikz_style str (PathStyle st w (Some d) al f fa ca jo).
Proof. exact tikz_nameless. Qed.
Print Assumptions C88_color_refuted.
(** and an invisible line has the options of a line with no style, so it is drawn *)
Theorem C88_invisible_refuted : forall str w c al f fa ca jo,
  tikz_style str (PathStyle NoPen w (Some c) al f fa ca jo) = Ok (join (lit ", ") ((lit "line width=" ++ str w) :: match c_name c with Some n => [n] | None => [] end)).
Proof. exact tikz_invisible. Qed.
Print Assumptions C88_invisible_refuted.
Example C88_example : tikz_style (fun _ => lit "1pt") (PathStyle DashLine PNone (Some (ModelColor.Color (of_int 0) (of_int 0) (of_int 0) (Some (lit "black")))) (of_int 1) None (of_int 1) SquareCap BevelJoin)
  = Ok (lit "line width=1pt, dash pattern=on 5mm off 5mm, black").
Proof. vm_compute. reflexivity. Qed.
