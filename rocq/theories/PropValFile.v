(** Properties of the pattern files (C129, C130). *)
From Coq Require Import ZArith String Ascii List Bool Lia.
From Verif Require Import Base ModelFormula ModelMeasure SpecXml.
From Verif Require ModelXml ModelColor ModelStyle ModelSketch.
From Verif Require Import ModelValentina SpecValentina ProofValentina6 ModelValFile SpecValFile ProofValFile ProofValFile2.
Import ModelColor(color, database).
Import ModelXml(int_parse, int_str).
Import ModelSketch(expr, ops, o_id, counter, sketch).
Import ListNotations.
Local Open Scope nat_scope.

Section Properties.
Context {float : Type} (float_str : float -> text) (float_parse : text -> result float) (db : database) (black : color) (parse : text -> expr).
Context {vit : Type} (exists_file : text -> bool) (beside : text -> text) (load : text -> result vit) (values : vit -> result (list (string * Rdefinitions.R))).
Notation read_draw := (read_draw float float_str float_parse db black parse vit values).
Notation read_file := (read_file float float_str float_parse db black parse vit exists_file beside load values).
Notation write_file := (write_file float float_str float_parse db).
Notation read_piece := (read_piece float float_str float_parse db black parse).
Notation measured := (measured values).
Notation resolved := (resolved exists_file beside load).

(** C129.  A pattern written then read: the same unit, the same measurements, the same scopes in the same order, with
    the same names, the same operations and the same positions; when the ids of the scopes are not interleaved and are
    larger than the last one of the process, and all the scopes were built with the measurements. *)
Theorem C129_round_trip_partial : faithful float_str float_parse -> forall unit path v m scopes,
  unit <> [] -> xml_text unit -> resolved path v -> measured v m ->
  Forall (good_scope parse m) scopes -> ForallOrdPairs before scopes ->
  exists x, write_file path (Pattern float (Some unit) scopes) = Ok x /\ forall c,
    (forall s o, In s scopes -> In o (ops (st_sketch _ (snd s))) -> (c < o_id o)%Z) ->
    exists scopes' c', read_file (stored x) c = (Ok (v, Pattern float (Some unit) scopes'), c') /\ Forall2 (same_scope parse) scopes scopes'.
Proof. exact (file_round_trip float_str float_parse db black parse exists_file beside load values). Qed.
(** A pattern without unit is written, then refused. *)
Theorem C129_unit_refuted : forall path p x c, p_unit _ p = None \/ p_unit _ p = Some [] -> write_file path p = Ok x ->
  fst (read_file (stored x) c) = Raise NameError.
Proof. exact (unit_lost float_str float_parse db black parse exists_file beside load values). Qed.
(** A pattern whose file of measurements is not found, neither from the current directory nor beside the pattern *)
Theorem C129_measurements_refuted : forall t p x c, p_unit _ p <> None -> p_unit _ p <> Some [] -> t <> [] ->
  exists_file t = false -> exists_file (beside t) = false -> write_file (Some t) p = Ok x ->
  fst (read_file (stored x) c) = Raise NameError.
Proof. exact (measurements_lost float_str float_parse db black parse exists_file beside load values). Qed.
(** A scope without name is not written. *)
Theorem C129_unnamed_refuted : forall path p s, In s (p_scopes _ p) -> fst s = None -> ~ is_ok (write_file path p).
Proof. exact (unnamed_scope float_str float_parse db). Qed.
(** The parts which a file must have *)
Theorem C129_required : forall root c,
  (lacks root "unit" -> fst (read_file root c) = Raise NameError) /\
  (forall u a b l, holds root "unit" l -> first_element root "unit" = Some (Node (lit "unit") a (Some u) b) ->
     lacks root "measurements" -> fst (read_file root c) = Raise AttributeError).
Proof.
  intros root c. split.
  - intros H. unfold ModelValFile.read_file, text_element. rewrite (lacks_first _ _ H). reflexivity.
  - intros u a b l _ H M. unfold ModelValFile.read_file, text_element. rewrite H. cbn [body bind]. unfold read_measurements. rewrite (lacks_first _ _ M). reflexivity.
Qed.

(** C130.  The modeling and the details of a piece whose calculations were read: they are read exactly when each item is
    one of the format, with attributes of the right sort, and each node leads to an operation of the sketch; then
    the piece is its name and its sketch. *)
Theorem C130_details : forall v piece name l els mo de m c st,
  lookup (attributes piece) (lit "name") = Some name -> measured v m ->
  holds piece "calculation" l -> Forall2 calculation l els -> holds piece "modeling" mo -> holds piece "details" de ->
  read_piece els (empty float c m) = (Ok tt, st) ->
  (is_ok (fst (read_draw v piece c)) <->
     Forall (one_of float_parse modeling_items) mo /\ Forall (good_detail float_parse (st_sketch _ st) mo) de) /\
  (forall r, fst (read_draw v piece c) = Ok r -> r = (Some name, st)) /\
  snd (read_draw v piece c) = counter (st_sketch _ st).
Proof. exact (draw_ok float_str float_parse db black parse values). Qed.
(** The pieces of fabric are not kept: a piece is the same one without its modeling and its details. *)
Theorem C130_lost_refuted : forall v piece piece' name l els mo de m c st r,
  lookup (attributes piece) (lit "name") = Some name -> lookup (attributes piece') (lit "name") = Some name -> measured v m ->
  holds piece "calculation" l -> holds piece' "calculation" l -> Forall2 calculation l els ->
  holds piece "modeling" mo -> holds piece "details" de -> holds piece' "modeling" [] -> holds piece' "details" [] ->
  read_piece els (empty float c m) = (Ok tt, st) -> fst (read_draw v piece c) = Ok r ->
  read_draw v piece' c = read_draw v piece c.
Proof.
  intros v piece piece' name l els mo de m c st r N N' M Hc Hc' F Hm Hd Hm' Hd' R E.
  destruct (C130_details v piece name l els mo de m c st N M Hc F Hm Hd R) as (_ & A2 & A3).
  destruct (C130_details v piece' name l els [] [] m c st N' M Hc' F Hm' Hd' R) as (B1 & B2 & B3).
  destruct (proj2 B1 (conj (Forall_nil _) (Forall_nil _))) as [r' E'].
  rewrite (surjective_pairing (read_draw v piece' c)), (surjective_pairing (read_draw v piece c)), E, E', A3, B3, (A2 r E), (B2 r' E'). reflexivity.
Qed.
(** A piece without its name or its parts stops the reading, and so does a comment among the calculations. *)
Lemma calculations_comment : forall l st b, In (Comment b) l -> ~ is_ok (fst (read_calculations float float_str float_parse db black parse l st)).
Proof.
  induction l as [|e l IH]; intros st b I [x H]; [destruct I|]. destruct e as [t a b' l'|b']; [|discriminate H].
  destruct I as [I|I]; [discriminate I|]. cbn [read_calculations] in H. destruct (read float float_str float_parse db black parse (Element t a) st) as [[]]; [|discriminate H].
  apply (IH s b I). exists x. exact H.
Qed.
Theorem C130_required : forall v piece c,
  (lookup (attributes piece) (lit "name") = None -> fst (read_draw v piece c) = Raise KeyError) /\
  (lacks piece "calculation" \/ lacks piece "modeling" \/ lacks piece "details" -> ~ is_ok (fst (read_draw v piece c))) /\
  (forall l b, holds piece "calculation" l -> In (Comment b) l -> ~ is_ok (fst (read_draw v piece c))).
Proof.
  intros v piece c. split; [intros N; unfold ModelValFile.read_draw; rewrite N; reflexivity|]. split.
  - intros L [r H]. unfold ModelValFile.read_draw in H. destruct (lookup (attributes piece) (lit "name")); [|discriminate H]. cbn [bind] in H.
    destruct (match v with Some v => values v | None => Ok [] end); [|discriminate H]. cbn [bind] in H.
    destruct (iterate (first_element piece "calculation")) eqn:C; cbn [bind] in H; [|discriminate H].
    match type of H with context [read_calculations _ _ _ _ _ _ ?l ?st] => destruct (read_calculations float float_str float_parse db black parse l st) as [[]] end; [|discriminate H].
    match type of H with context [ModelSketch.eval_sketch ?s] => destruct (ModelSketch.eval_sketch s) as [[] s'] end; [|discriminate H]. cbn [bind] in H.
    destruct L as [L|[L|L]].
    + rewrite (lacks_first _ _ L) in C. discriminate C.
    + rewrite (lacks_first _ _ L) in H. discriminate H.
    + rewrite (lacks_first _ _ L) in H. destruct (iterate (first_element piece "modeling")); [|discriminate H]. cbn [bind] in H.
      match type of H with context [read_modeling ?a ?b ?l []] => destruct (read_modeling a b l []) end; discriminate H.
  - intros l b Hc I [r H]. destruct (holds_first _ _ _ Hc) as (a & b' & E). unfold ModelValFile.read_draw in H. rewrite E in H. cbn [iterate children] in H.
    destruct (lookup (attributes piece) (lit "name")); [|discriminate H]. cbn [bind] in H.
    destruct (match v with Some v => values v | None => Ok [] end); [|discriminate H]. cbn [bind] in H.
    pose proof (fun st => calculations_comment l st b I) as K.
    match type of H with context [read_calculations _ _ _ _ _ _ ?l ?st] => specialize (K st); destruct (read_calculations float float_str float_parse db black parse l st) as [[]] end; [|discriminate H].
    apply K. eexists. reflexivity.
Qed.
End Properties.
Print Assumptions C129_round_trip_partial.
Print Assumptions C129_unit_refuted.
Print Assumptions C129_measurements_refuted.
Print Assumptions C129_unnamed_refuted.
Print Assumptions C129_required.
Print Assumptions C130_details.
Print Assumptions C130_lost_refuted.
Print Assumptions C130_required.

(** ** An example: two scopes; the numbers are integers, the formulas are not read *)
Local Open Scope string_scope.
Definition e_other := Element (lit "point") (at_ [("id", "7"); ("type", "single"); ("name", "A"); ("x", "1"); ("y", "22"); ("mx", "1"); ("my", "2")]).
Definition d_other : @description Z := Build_description ModelSketch.KSingle 7 (lit "A") [] [lit "1"; lit "22"] (PFloat _ 1%Z) (PFloat _ 2%Z) (PNone _) (PNone _).
Notation z_piece := (read_piece Z int_str int_parse [] red z_parse).
Notation z_draw := (read_draw Z int_str int_parse [] red z_parse nat (fun _ => Raise KeyError) None).
Definition front : state Z := snd (z_piece [e_a; e_b; e_line] (empty Z 0 [])).
Definition back : state Z := snd (z_piece [e_other] (empty Z 0 [])).
Lemma pair_ok {A B} (p : result A * B) a : fst p = Ok a -> p = (Ok a, snd p).
Proof. destruct p. cbn. congruence. Qed.
Lemma front_good : good_scope z_parse [] (Some (lit "front"), front).
Proof.
  apply (scope_read int_str int_parse [] red z_parse [] (lit "front") 0 [e_a; e_b; e_line] [d_a; d_b; d_line]).
  - apply readable_add; [exact says_a|reflexivity|intros z []|]. apply readable_add; [exact says_b|reflexivity|intros z []|].
    apply readable_add; [exact says_line|reflexivity|intros z Z; cbn in *; tauto|]. constructor.
  - pose proof demo_writable as W. rewrite Forall_forall in W. apply Forall_forall. intros d D. apply W. cbn in *. tauto.
  - intros c C. cbn in C. repeat (destruct C as [<-|C]; [left; vm_compute; lia|]). destruct C.
  - assert (H : fst (z_piece [e_a; e_b; e_line] (empty Z 0 [])) = Ok tt) by (vm_compute; reflexivity). unfold front. exact (pair_ok _ _ H).
Qed.
Lemma back_good : good_scope z_parse [] (Some (lit "back"), back).
Proof.
  apply (scope_read int_str int_parse [] red z_parse [] (lit "back") 0 [e_other] [d_other]).
  - apply readable_add; [|reflexivity|intros z []|constructor].
    constructor; cbn; try tauto; try congruence.
    + split; reflexivity.
    + eexists; split; reflexivity.
    + constructor.
    + repeat constructor.
    + intros _. split; [reflexivity|]. split; eexists; eexists; repeat split; reflexivity.
  - constructor; [|constructor]. pose proof demo_writable as W. rewrite Forall_forall in W. 
    destruct (W d_a) as [w1 w2 w3 w4 w5 w6 w7]; [cbn; tauto|]. constructor; cbn in *; auto.
    intros t [<-|[<-|[]]] ch C; cbn in C; repeat (destruct C as [<-|C]; [left; vm_compute; lia|]); destruct C.
  - intros c C. cbn in C. repeat (destruct C as [<-|C]; [left; vm_compute; lia|]). destruct C.
  - assert (H : fst (z_piece [e_other] (empty Z 0 [])) = Ok tt) by (vm_compute; reflexivity). unfold back. exact (pair_ok _ _ H).
Qed.
Lemma front_ids : map o_id (ops (st_sketch _ front)) = [1; 2; 4]%Z.
Proof. vm_compute. reflexivity. Qed.
Lemma back_ids : map o_id (ops (st_sketch _ back)) = [7]%Z.
Proof. vm_compute. reflexivity. Qed.
Lemma ids_before (n n' : option text) (f b : state Z) : map o_id (ops (st_sketch _ f)) = [1; 2; 4]%Z -> map o_id (ops (st_sketch _ b)) = [7]%Z -> before (n, f) (n', b).
Proof.
  intros F B o o' O O'. cbn [snd] in *. apply (in_map o_id) in O, O'. rewrite F in O. rewrite B in O'. cbn in O, O'. lia.
Qed.
Example C129_example : Forall (good_scope z_parse []) [(Some (lit "front"), front); (Some (lit "back"), back)] /\
  ForallOrdPairs before [(Some (lit "front"), front); (Some (lit "back"), back)].
Proof.
  split.
  - apply Forall_cons; [exact front_good|apply Forall_cons; [exact back_good|apply Forall_nil]].
  - apply FOP_cons; [|apply FOP_cons; [apply Forall_nil|apply FOP_nil]]. apply Forall_cons; [|apply Forall_nil].
    exact (ids_before _ _ front back front_ids back_ids).
Qed.
(** A detail with two nodes; then a node which leads nowhere, a width which is not an integer. *)
Definition piece (mo de : list xml) : xml :=
  Node (lit "draw") (at_ [("name", "front")]) None
    [Node (lit "calculation") [] None (map (fun e => Node (e_tag e) (e_attrib e) None []) [e_a; e_b; e_line]);
     Node (lit "modeling") [] None mo; Node (lit "details") [] None de].
Definition some_modeling := [Node (lit "point") (at_ [("id", "10"); ("idObject", "1"); ("inUse", "true")]) None []; Node (lit "point") (at_ [("id", "11"); ("idObject", "2")]) None []].
Definition some_detail (w n : string) := Node (lit "detail") (at_ [("id", "12"); ("width", w); ("name", "Front")]) None
  [Node (lit "nodes") [] None [Node (lit "node") (at_ [("idObject", "10"); ("reverse", "1")]) None []; Node (lit "node") (at_ [("idObject", n)]) None []];
   Node (lit "grainline") (at_ [("arrows", "0"); ("visible", "false")]) None []].
Example C130_example : (match fst (z_draw (piece some_modeling [some_detail "1" "11"]) 0%Z) with Ok s => fst s = Some (lit "front") | Raise _ => False end) /\
  fst (z_draw (piece some_modeling [some_detail "1" "13"]) 0%Z) = Raise KeyError /\
  fst (z_draw (piece some_modeling [some_detail "1.5" "11"]) 0%Z) = Raise ValueError.
Proof. split; [vm_compute; reflexivity|]. split; vm_compute; reflexivity. Qed.
