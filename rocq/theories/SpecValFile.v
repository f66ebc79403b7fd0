(** What is in a pattern file: its parts, the modeling and the details of a piece, and the patterns which can be written. *)
From Coq Require Import String Ascii List Bool Arith ZArith.
From Verif Require Import Base ModelFormula ModelMeasure SpecXml.
From Verif Require ModelXml ModelSketch.
From Verif Require Import ModelValentina SpecValentina ModelValFile.
Import ModelXml(int_parse).
Import ModelSketch(ops, o_kind, o_id, o_refs, is_point, expr, sketch).
Import ListNotations.

(** The first element [tag] of [e] holds the children [l] *)
Definition holds (e : xml) (tag : string) (l : list xml) : Prop :=
  exists before a b after, children e = before ++ Node (lit tag) a b l :: after /\
    forall a' b' l', ~ In (Node (lit tag) a' b' l') before.
Definition lacks (e : xml) (tag : string) : Prop := forall a b l, ~ In (Node (lit tag) a b l) (children e).

(** The attributes of the elements of the modeling and of the details *)
Inductive sort := Integer | Number | Truth | Words.
Definition modeling_items : list (string * list (string * sort)) :=
  [("point", [("id", Integer); ("idObject", Integer); ("type", Words); ("inUse", Truth); ("mx", Number); ("my", Number)]);
   ("spline", [("id", Integer); ("idObject", Integer); ("type", Words); ("inUse", Truth)])]%string.
Definition detail_items : list (string * list (string * sort)) :=
  [("data", [("letter", Words); ("width", Integer); ("height", Integer); ("mx", Number); ("my", Number); ("fontSize", Integer);
             ("visible", Truth); ("rotation", Integer)]);
   ("patternInfo", [("width", Integer); ("height", Integer); ("mx", Number); ("my", Number); ("fontSize", Integer);
             ("visible", Truth); ("rotation", Integer)]);
   ("grainline", [("arrows", Integer); ("length", Integer); ("mx", Number); ("my", Number); ("visible", Truth); ("rotation", Integer)])]%string.
Definition detail_attributes : list (string * sort) :=
  [("id", Integer); ("version", Integer); ("forbidFlipping", Truth); ("width", Integer); ("united", Truth); ("mx", Number);
   ("name", Words); ("inLayout", Truth); ("seamAllowance", Truth); ("my", Number)]%string.
Definition node_attributes : list (string * sort) := [("idObject", Integer); ("type", Words); ("reverse", Truth)]%string.

(** An element of the calculations *)
Definition calculation (e : xml) (el : element) : Prop := exists b c, e = Node (e_tag el) (e_attrib el) b c.

Section Details.
Context {float : Type} (float_parse : text -> result float).
Definition good_text (s : sort) (t : text) : Prop :=
  match s with
  | Integer => is_ok (int_parse t)
  | Number => is_ok (float_parse t)
  | Truth => In t [lit "true"; lit "1"; lit "false"; lit "0"]
  | Words => True
  end.
Definition well_written (l : list (string * sort)) (e : xml) : Prop :=
  forall name s t, In (name, s) l -> lookup (attributes e) (lit name) = Some t -> good_text s t.
Definition one_of (table : list (string * list (string * sort))) (e : xml) : Prop :=
  exists tag l a b c, In (tag, l) table /\ e = Node (lit tag) a b c /\ well_written l e.

(** The number in an attribute; no number when there is no attribute *)
Definition refers (e : xml) (name : string) (k : option Z) : Prop :=
  match lookup (attributes e) (lit name) with
  | Some t => exists z, int_parse t = Ok z /\ k = Some z
  | None => k = None
  end.
(** The item of the modeling which has the id [k]: the last one *)
Definition item_of (l : list xml) (k : option Z) (e : xml) : Prop :=
  exists before after, l = before ++ e :: after /\ refers e "id" k /\ forall e', In e' after -> ~ refers e' "id" k.
(** A node is the one of an item of the modeling, which is the one of an operation; the operation depends on points only *)
Definition good_node (s : sketch) (modeling : list xml) (node : xml) : Prop :=
  well_written node_attributes node /\
  exists k item z o, refers node "idObject" k /\ item_of modeling k item /\ refers item "idObject" (Some z) /\
    In o (ops s) /\ o_id o = z /\
    forall r, In r (o_refs o) -> exists p, nth_error (ops s) r = Some p /\ is_point (o_kind p) = true.
Definition good_detail (s : sketch) (modeling : list xml) (e : xml) : Prop :=
  well_written detail_attributes e /\
  forall x, In x (children e) ->
    (exists a b l, x = Node (lit "nodes") a b l /\ Forall (good_node s modeling) l) \/ one_of detail_items x.
End Details.

(** ** Patterns *)
Section Patterns.
Context {float : Type} (parse : text -> expr).
Notation state := (state float).
(** The ids of a sketch are before those of another one *)
Definition before (s s' : option text * state) : Prop :=
  forall o o', In o (ops (st_sketch _ (snd s))) -> In o' (ops (st_sketch _ (snd s'))) -> (o_id o < o_id o')%Z.
(** A scope which can be written: its name is given, its sketch was built with the measurements and evaluated *)
Definition good_scope (m : list (string * Rdefinitions.R)) (s : option text * state) : Prop :=
  (exists n, fst s = Some n /\ xml_text n) /\
  (exists st, drafted m st /\ evaluated st (snd s)) /\
  (forall i, i < length (ops (st_sketch _ (snd s))) -> exists d, is_operation parse (snd s) i d /\ writable d).
(** The same scope: its name, its operations, the positions of its points *)
Definition same_scope (s s' : option text * state) : Prop :=
  fst s' = fst s /\ same_sketch (st_sketch _ (snd s)) (st_sketch _ (snd s')) /\
  same_place (st_sketch _ (snd s)) (st_sketch _ (snd s')) /\
  forall i d, is_operation parse (snd s) i d -> exists d', is_operation parse (snd s') i d' /\ same d d'.
End Patterns.

(** The measurements of a pattern: those of a file of measurements *)
Section Measurements.
Context {vit : Type} (exists_file : text -> bool) (beside : text -> text) (load : text -> result vit) (values : vit -> result (list (string * Rdefinitions.R))).
Definition measured (v : option vit) (m : list (string * Rdefinitions.R)) : Prop :=
  match v with Some v => values v = Ok m | None => m = [] end.
(** The path of the measurements and what is read there *)
Definition resolved (path : option text) (v : option vit) : Prop :=
  match path, v with
  | None, None => True
  | Some t, Some v => t <> [] /\ xml_text t /\ (exists_file t = true /\ load t = Ok v \/
      exists_file t = false /\ exists_file (beside t) = true /\ load (beside t) = Ok v)
  | _, _ => False
  end.
End Measurements.
