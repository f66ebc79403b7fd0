(** C39, C40: SVG path data *)
From Coq Require Import String Ascii List Bool Arith ZArith Reals Lra Lia.
From Verif Require Import Base ModelFormula ModelXml SpecXml ModelVector ModelLine ModelBezier ModelConic ModelPath.
From Verif Require Import ModelSvgPath SpecSvgPath GlueSvgPath ProofXml2 ProofSvgPath ProofSvgPath2 ProofSvgPath3.
Import ListNotations.

(** Every text is made of words between spaces and commas, in one way, and these words are read. *)
Theorem C39_words : forall s l, spaced s l <-> words s = l.
Proof. exact words_iff. Qed.
Print Assumptions C39_words.
(** Reading well formed data, whose words are between spaces or commas, without T or t. *)
Theorem C39_parse_partial {float : Type} (float_parse : text -> result float) :
  forall s (l : list item) ws, spaced s (concat ws) -> Forall2 (spells (reads float_parse)) l ws -> Forall well_formed l ->
  Forall (fun i => ~ smooth_quadratic (fst i)) l -> forall fuel, length s <= fuel ->
  parse float_parse fuel s = Ok (map numbers (concat (map meaning l))).
Proof. exact (parse_ok float_parse). Qed.
Print Assumptions C39_parse_partial.
Theorem C39_round_trip_partial {float : Type} (float_str : float -> text) float_parse :
  faithful float_str float_parse -> (forall x, float_str x <> [] /\ forall c, float_str x = [c] -> is_alpha c = false) ->
  forall l, Forall complete l -> Forall (fun c => ~ smooth_quadratic (fst c)) l ->
  forall fuel, length (to_xml float_str (map numbers l)) <= fuel ->
  parse float_parse fuel (to_xml float_str (map numbers l)) = Ok (map numbers l).
Proof. exact (round_trip_data float_str float_parse). Qed.
Print Assumptions C39_round_trip_partial.
(** Nothing of the text is lost, whatever it is: each command takes the next words. *)
Theorem C39_lossless {float : Type} (float_parse : text -> result float) : forall fuel s l, parse float_parse fuel s = Ok l ->
  exists ws chunks, spaced s ws /\ Forall2 (fun w t => token_of float_parse w = Ok t) ws (concat chunks) /\ Forall2 chunk l chunks.
Proof. exact (parse_lossless float_parse). Qed.
Print Assumptions C39_lossless.
(** Reading ends when there is no z; *)
Theorem C39_ends_partial {float : Type} (float_parse : text -> result float) : forall s fuel,
  (forall e w, float_parse w = Raise e -> e <> OutOfFuel) -> (forall ws c, spaced s ws -> In [c] ws -> ~ closing c) ->
  length s <= fuel -> parse float_parse fuel s <> Raise OutOfFuel.
Proof. exact (parse_ends float_parse). Qed.
Print Assumptions C39_ends_partial.
(** but it may not end otherwise. *)
Theorem C39_ends_refuted : forall fuel, parse int_parse fuel (lit "M 0 0 z 1 1") = Raise OutOfFuel.
Proof. exact endless. Qed.
Print Assumptions C39_ends_refuted.
Theorem C39_first_number {float : Type} (float_parse : text -> result float) : forall s w ws x fuel,
  spaced s (w :: ws) -> reads float_parse w x -> (forall v, In v ws -> exists t, token_of float_parse v = Ok t) ->
  parse float_parse (S fuel) s = Raise TypeError.
Proof. exact (parse_first_number float_parse). Qed.
Print Assumptions C39_first_number.
(** The grammar of SVG allows no space after a letter, newlines, and T has two arguments. *)
Theorem C39_compact_refuted : forall fuel, parse int_parse fuel (lit "M10 10") = Raise ValueError.
Proof. exact compact_refuted. Qed.
Print Assumptions C39_compact_refuted.
Theorem C39_newline_refuted : forall fuel, parse int_parse (S fuel) (lit "M 1 2" ++ [ascii_of_nat 10] ++ lit "L 3 4") <>
  Ok (map numbers [("M"%char, [1; 2]%Z); ("L"%char, [3; 4]%Z)]).
Proof. exact newline_refuted. Qed.
Print Assumptions C39_newline_refuted.
Theorem C39_smooth_refuted : forall fuel, parse int_parse (S (S (S fuel))) (lit "M 0 0 T 1 2 T 3 4") <>
  Ok (map numbers [("M"%char, [0; 0]%Z); ("T"%char, [1; 2]%Z); ("T"%char, [3; 4]%Z)]).
Proof. exact smooth_refuted. Qed.
Print Assumptions C39_smooth_refuted.

Example C39_case : parse int_parse 40 (lit "m 1,2 3 4 -5 6  h 7 8 , C 1 2 3 4 5 6 z") =
  Ok (map numbers [("m"%char, [1; 2]%Z); ("l"%char, [3; 4]%Z); ("l"%char, [-5; 6]%Z); ("h"%char, [7]%Z); ("h"%char, [8]%Z);
                   ("C"%char, [1; 2; 3; 4; 5; 6]%Z); ("z"%char, [])]).
Proof. reflexivity. Qed.
Example C39_case_hypotheses :
  let l := [("m"%char, [[1; 2]; [3; 4]; [-5; 6]]%Z); ("z"%char, [[]])] in
  let ws := [[lit "m"; lit "1"; lit "2"; lit "3"; lit "4"; lit "-5"; lit "6"]; [lit "z"]] in
  spaced (lit "m 1,2 3 4 -5 6  z") (concat ws) /\ Forall2 (spells (reads int_parse)) l ws /\ Forall well_formed l /\
  Forall (fun i => ~ smooth_quadratic (fst i)) l.
Proof.
  cbv zeta. split; [apply words_iff; reflexivity|]. split; [|split].
  - repeat (constructor; [eexists; split; [reflexivity|]; repeat constructor; intros c H; injection H as <-; reflexivity|]). constructor.
  - constructor; [exists 2|constructor; [exists 0|constructor]]; cbn; (split; [reflexivity|]; split; [discriminate|]; split; [repeat constructor|]); congruence.
  - repeat constructor; intros [H|H]; discriminate H.
Qed.
Example C39_integers : faithful int_str int_parse /\ (forall x, int_str x <> [] /\ forall c, int_str x = [c] -> is_alpha c = false).
Proof. split; [exact integers_faithful|exact integers_words]. Qed.

(** The parts of the path are the strokes of the SVG pen, with their control points, for any list of
    commands which starts with a move and has no other move, no absolute vertical line, no smooth
    curve and nothing after z. *)
Theorem C40_geometry_partial : forall c0 args0 a v l svgs, decode (c0, args0) = Some (Move a v) -> map decode l = map Some svgs ->
  Forall supported svgs -> closes_last svgs ->
  exists p, to_geometry ((c0, args0) :: l) = Ok (Some p) /\ drawn_as p (picture (Move a v :: svgs)).
Proof. exact geometry_ok. Qed.
Print Assumptions C40_geometry_partial.
Theorem C40_text_partial : forall float_parse s (items : list item) ws fuel c0 args0 a v l svgs,
  spaced s (concat ws) -> Forall2 (spells (reads float_parse)) items ws -> Forall well_formed items ->
  Forall (fun i => ~ smooth_quadratic (fst i)) items -> length s <= fuel ->
  concat (map meaning items) = (c0, args0) :: l -> decode (c0, args0) = Some (Move a v) -> map decode l = map Some svgs ->
  Forall supported svgs -> closes_last svgs ->
  exists p, from_xml float_parse fuel s = Ok (Some p) /\ drawn_as p (picture (Move a v :: svgs)).
Proof. exact text_geometry. Qed.
Print Assumptions C40_text_partial.
Theorem C40_no_move : forall c args l, Ascii.eqb (lower c) "m" = false -> to_geometry ((c, args) :: l) = Raise NameError.
Proof. exact no_move. Qed.
Print Assumptions C40_no_move.
Theorem C40_vertical_refuted : exists l svgs p, map decode l = map Some svgs /\ svgs = [Move true (V 1 2); Vertical true 5] /\
  to_geometry l = Ok (Some p) /\ ~ drawn_as p (picture svgs).
Proof. exact vertical_refuted. Qed.
Print Assumptions C40_vertical_refuted.
Theorem C40_subpath_refuted : exists l svgs p, map decode l = map Some svgs /\ svgs = [Move true (V 0 0); Move true (V 5 5); Line true (V 6 6)] /\
  to_geometry l = Ok (Some p) /\ ~ drawn_as p (picture svgs).
Proof. exact subpath_refuted. Qed.
Print Assumptions C40_subpath_refuted.
Theorem C40_after_close_refuted : exists l svgs p, map decode l = map Some svgs /\
  svgs = [Move true (V 0 0); Line true (V 6 6); ClosePath; Line true (V 7 8)] /\
  to_geometry l = Ok (Some p) /\ ~ drawn_as p (picture svgs).
Proof. exact after_close_refuted. Qed.
Print Assumptions C40_after_close_refuted.
Theorem C40_smooth_cubic_refuted : forall p c args s, decode (c, args) = Some s -> (exists a p2 p3, s = SmoothCubic a p2 p3) ->
  do_svg p c args = Raise TypeError.
Proof. exact smooth_cubic_raises. Qed.
Print Assumptions C40_smooth_cubic_refuted.
Theorem C40_smooth_quadratic_refuted : forall p c args s, decode (c, args) = Some s -> (exists a p2, s = SmoothQuadratic a p2) ->
  do_svg p c args = Raise TypeError.
Proof. exact smooth_quadratic_raises. Qed.
Print Assumptions C40_smooth_quadratic_refuted.

Local Open Scope R_scope.
Example C40_case :
  let l := [("l"%char, [1; 2]); ("H"%char, [9]); ("c"%char, [0; 1; 1; 1; 1; 0]); ("Q"%char, [3; 3; 4; 4]); ("z"%char, [])] in
  let svgs := [Line false (V 1 2); Horizontal true 9; Cubic false (V 0 1) (V 1 1) (V 1 0); Quadratic true (V 3 3) (V 4 4); ClosePath] in
  decode ("m"%char, [5; 6]) = Some (Move false (V 5 6)) /\ map decode l = map Some svgs /\ Forall supported svgs /\ closes_last svgs /\
  nth_error (picture (Move false (V 5 6) :: svgs)) 4 = Some (SLine (V 4 4) (V (0 + 5) (0 + 6))).
Proof.
  cbv zeta. split; [reflexivity|]. split; [reflexivity|]. split; [repeat constructor|]. split; [|reflexivity].
  intros i. do 4 (destruct i as [|i]; [discriminate|]). destruct i as [|i]; [reflexivity|destruct i; discriminate].
Qed.
