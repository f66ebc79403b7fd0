(** C42: the style of the items of an SVG file. *)
From Coq Require Import String Ascii List Bool Arith Reals ZArith Lia.
From Verif Require Import Base ModelFormula ModelMeasure ModelXml ModelVector ModelTransformation ModelSvgState SpecSvgState ProofMeasure ProofSvgTransform ProofSvgState.
Import ListNotations.

(** What an item gives, in its style or as an attribute, is what it is rendered with. *)
Theorem C42_own : forall number (read_number : text -> option number) defaults l out i s name v,
  on_root number read_number defaults l = Ok out -> In (i, s) out -> In name (map fst defaults) -> given i name = Some v ->
  lookup (s_attributes number s) name = Some (to_python number read_number v).
Proof. exact @own_ok. Qed.
Print Assumptions C42_own.

(** In the trees where nothing follows a group, and for an attribute no item leaves to None, each item
    is rendered, in document order, with what the innermost giver among itself and the enclosing groups
    gives.  Missing: the other trees and attributes, for which it is wrong. *)
Theorem C42_inherited_partial : forall number (read_number : text -> option number) defaults (l : list (node number)) out name,
  group_last l -> In name (map fst defaults) -> (forall i n, In n l -> member i n -> answered i name = given i name) ->
  on_root number read_number defaults l = Ok out ->
  Forall2 (fun o r => snd o = fst r /\ lookup (s_attributes number (snd r)) name = rendered read_number defaults given (snd o :: fst o) name) (flat_map (enclosed []) l) out.
Proof. exact @inherited_ok. Qed.
Print Assumptions C42_inherited_partial.
Theorem C42_transform_partial : forall number (read_number : text -> option number) defaults (l : list (node number)) out,
  group_last l -> (forall i n, In n l -> member i n -> match i_transform _ i with Some t => affine t | None => True end) ->
  on_root number read_number defaults l = Ok out ->
  Forall2 (fun o r => snd o = fst r /\ forall p, apply (s_transform _ (snd r)) p = place (snd o :: fst o) p) (flat_map (enclosed []) l) out.
Proof. exact @transform_ok. Qed.
Print Assumptions C42_transform_partial.

(** In every tree: the groups which count are those opened before the item, closed or not, and an
    attribute left to None counts as given. *)
Theorem C42_document : forall number (read_number : text -> option number) defaults (l : list (node number)) out,
  on_root number read_number defaults l = Ok out ->
  Forall2 (fun o r => snd o = fst r /\ forall name, In name (map fst defaults) ->
      lookup (s_attributes number (snd r)) name = rendered read_number defaults answered (snd o :: fst o) name)
    (all_preceded preceded [] l) out.
Proof. exact @document_ok. Qed.
Print Assumptions C42_document.

Definition plain (style : string) : item Z := Item Z [] None (Some (lit style)).
Definition bare : item Z := Item Z [] None None.
Notation run := (on_root Z integer_of presentation).
(** A tree which meets the hypotheses: an item, then a group with an item and a group *)
Definition good_tree : list (node Z) :=
  [Graphic Z (plain "fill:red"); Other Z; Group Z (plain "fill: blue; stroke-width:2") [Graphic Z bare; Group Z (plain "stroke-width:3") [Graphic Z (plain "opacity:0")]]].
Lemma lookup_in_names {A} (l : list (text * A)) name v : lookup l name = Some v -> In name (map fst l).
Proof. intro E. destruct (in_dec (list_eq_dec ascii_dec) name (map fst l)) as [H|H]; [exact H|]. apply lookup_none in H. congruence. Qed.
Lemma lookup_names_none {A} (l : list (text * A)) name : lookup l name = None -> ~ In name (map fst l).
Proof. apply lookup_none. Qed.
Lemma good_members i n : In n good_tree -> member i n -> i_attributes Z i = [] /\ i_transform Z i = None.
Proof.
  intros N M. repeat match goal with
    | M : In _ good_tree |- _ => unfold good_tree in M
    | M : In _ (_ :: _) |- _ => destruct M as [M|M]; [subst|]
    | M : In _ [] |- _ => destruct M
    | M : member _ _ |- _ => inversion M; clear M; subst
    end; split; reflexivity.
Qed.
Example C42_good : group_last good_tree /\ (forall i n, In n good_tree -> member i n -> answered i (lit "stroke_width") = given i (lit "stroke_width")) /\
  (forall i n, In n good_tree -> member i n -> match i_transform _ i with Some t => affine t | None => True end) /\
  In (lit "stroke_width") (map fst presentation) /\ is_ok (run good_tree).
Proof.
  split; [repeat constructor|]. split.
  { intros i n N M. destruct (good_members i n N M) as (E & _). unfold answered, given. rewrite E. reflexivity. }
  split. { intros i n N M. destruct (good_members i n N M) as (_ & ->). exact Logic.I. }
  split.
  { apply lookup_in_names with (v := VNumber Z 1%Z). vm_compute. reflexivity. }
  assert (E : match run good_tree with Ok _ => True | Raise _ => False end) by (vm_compute; exact Logic.I).
  destruct (run good_tree) as [o|]; [exists o; reflexivity|destruct E].
Qed.
(** The values of an attribute, for each item *)
Definition shown (l : list (node Z)) (name : string) : result (list (option (value Z))) :=
  bind (run l) (fun out => Ok (map (fun r => lookup (s_attributes Z (snd r)) (lit name)) out)).
Example C42_good_values : shown good_tree "stroke_width" = Ok [Some (VNumber Z 1); Some (VNumber Z 2); Some (VNumber Z 3)]%Z /\
  shown good_tree "fill" = Ok [Some (VText Z (lit "red")); Some (VText Z (lit "blue")); Some (VText Z (lit "blue"))].
Proof. split; vm_compute; reflexivity. Qed.

(** An item after a group is rendered with the style of the group. *)
Theorem C42_after_refuted : exists l : list (node Z),
  l = [Group Z (plain "fill:red") []; Graphic Z bare] /\ flat_map (enclosed []) l = [([], bare)] /\
  rendered integer_of presentation given [bare] (lit "fill") = Some (VNone Z) /\ shown l "fill" = Ok [Some (VText Z (lit "red"))].
Proof. eexists. split; [reflexivity|]. repeat split; vm_compute; reflexivity. Qed.
Print Assumptions C42_after_refuted.
(** The attribute fill, which the classes of items have, resets the style of the group when it is not given. *)
Definition unfilled : item Z := Item Z [(lit "fill", VNone Z)] None None.
Theorem C42_none_refuted : exists l : list (node Z),
  l = [Group Z (plain "fill:red") [Graphic Z unfilled]] /\
  rendered integer_of presentation given [unfilled; plain "fill:red"] (lit "fill") = Some (VText Z (lit "red")) /\ shown l "fill" = Ok [Some (VNone Z)].
Proof. eexists. split; [reflexivity|]. repeat split; vm_compute; reflexivity. Qed.
Print Assumptions C42_none_refuted.
(** A style which ends with a semicolon is refused. *)
Theorem C42_semicolon_refuted : forall number (read_number : text -> option number) defaults s i style,
  i_style number i = Some (style ++ lit ";") -> ~ is_ok (merge number read_number defaults s i).
Proof. exact @semicolon_raises. Qed.
Print Assumptions C42_semicolon_refuted.
(** The attribute stroke-linecap of an item has the python name stroke_line_cap: it is lost. *)
Definition capped : item Z := Item Z [(lit "stroke_line_cap", VText Z (lit "round"))] None None.
Theorem C42_linecap_refuted : shown [Graphic Z capped] "stroke_linecap" = Ok [Some (VText Z (lit "butt"))] /\
  ~ In (lit "stroke_line_cap") (map fst presentation).
Proof. split; [vm_compute; reflexivity|]. apply lookup_names_none. vm_compute. reflexivity. Qed.
Print Assumptions C42_linecap_refuted.
