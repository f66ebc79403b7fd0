(** Lemmas on the pattern files, second part: the modeling, the details, the pieces and the files. *)
From Coq Require Import ZArith String Ascii List Bool Lia Sorted.
From Verif Require Import Base ModelFormula ModelMeasure SpecXml ProofMeasure ProofSvgFile.
From Verif Require ModelXml ModelColor ProofXml.
From Verif Require Import ModelVector ModelSketch SpecSketch GlueSketch ProofSketch ProofSketch3 ProofSketch4.
From Verif Require Import ModelValentina SpecValentina ProofValentina3 ProofValentina5 ProofValentina6 ProofValentina7 ModelValFile SpecValFile ProofValFile.
Import ModelXml(int_parse, xml_char).
Import ModelColor(color, database).
Import ListNotations.
Local Open Scope nat_scope.

Section Pieces.
Context {float : Type} (float_str : float -> text) (float_parse : text -> result float) (db : database) (black : color) (parse : text -> expr).
Notation state := (state float).
Notation item := (item float).
Notation read_item := (read_item float float_parse).
Notation from_xml := (from_xml float float_parse).
Notation one_of := (one_of float_parse).
Notation good_node := (good_node float_parse).
Notation good_detail := (good_detail float_parse).
Notation find_node := (find_node float).
Notation read_parts := (read_parts float float_parse).
Notation read_detail := (read_detail float float_parse).
Notation read_modeling := (read_modeling float float_parse).
Notation get_item := (get_item float).

Lemma key_eqb_spec a b : reflect (a = b) (ModelValFile.key_eqb a b).
Proof.
  destruct a as [x|], b as [y|]; cbn; try (constructor; congruence). destruct (Z.eqb_spec x y); constructor; congruence.
Qed.
Lemma modeling_ok l : forall m0, (is_ok (read_modeling l m0) <-> Forall (one_of modeling_items) l) /\
  forall m, read_modeling l m0 = Ok m -> forall k,
    (exists e i, item_of l k e /\ from_xml modeling_tags e = Ok i /\ get_item m k = Ok i) \/
    ((forall e, In e l -> ~ refers e "id" k) /\ get_item m k = get_item m0 k).
Proof.
  induction l as [|e l IH]; intros m0; cbn [ModelValFile.read_modeling].
  - split; [split; [intros _; constructor|intros _; eexists; reflexivity]|]. intros m H k. injection H as <-. right. split; [intros e []|reflexivity].
  - pose proof (from_xml_good float_parse _ _ e modeling_tables) as G. destruct (from_xml modeling_tags e) as [i|x] eqn:F; cbn [bind].
    + destruct (IH ((key_of float "id" i, i) :: m0)) as [A B]. split.
      * rewrite A. split; intros H; [constructor; [apply G; eexists; reflexivity|exact H]|inversion H; assumption].
      * intros m H k. destruct (modeling_keys float_parse e i F) as [K1 K2]. destruct (B m H k) as [(e' & i' & (b1 & a1 & -> & R & N) & F' & Q)|[N Q]].
        -- left. exists e', i'. split; [|auto]. exists (e :: b1), a1. split; [reflexivity|auto].
        -- cbn [ModelValFile.get_item] in Q. destruct (key_eqb_spec k (key_of float "id" i)) as [->|D].
           ++ left. exists e, i. split; [|auto]. exists [], l. split; [reflexivity|]. auto.
           ++ right. split; [|exact Q]. intros e' [<-|I]; [|exact (N e' I)]. intros R. exact (D (refers_unique e "id" _ _ R K1)).
    + split; [split; [intros [a1 H]; discriminate H|]|intros m H; discriminate H]. intros H. inversion H as [|? ? O]; subst. destruct (proj2 G O) as [a1 E]. discriminate E.
Qed.
Lemma item_of_unique l k e e' : item_of l k e -> item_of l k e' -> e = e'.
Proof.
  intros (b & a & -> & R & N) (b' & a' & E & R' & N'). revert b' E. induction b as [|x b IH]; intros [|y b'] E; cbn in E.
  - congruence.
  - injection E as -> E. exfalso. apply (N e'); [rewrite E; apply in_or_app; right; left; reflexivity|exact R'].
  - injection E as <- E. exfalso. apply (N' e); [rewrite <- E; apply in_or_app; right; left; reflexivity|exact R].
  - injection E as _ E. exact (IH _ E).
Qed.

Lemma print_ok (st : state) i o : nth_error (ops (st_sketch _ st)) i = Some o ->
  (is_ok (print_operation float st i) <-> forall r, In r (o_refs o) -> exists p, nth_error (ops (st_sketch _ st)) r = Some p /\ is_point (o_kind p) = true).
Proof.
  intros O. unfold print_operation. rewrite O. destruct (forallb _ (o_refs o)) eqn:F.
  - split; [|intros _; eexists; reflexivity]. intros _ r I. rewrite forallb_forall in F. specialize (F r I). destruct (nth_error _ r) as [p|]; [|discriminate]. eauto.
  - split; [intros [a1 H]; discriminate H|]. intros H. enough (true = false) by discriminate. rewrite <- F. symmetry. apply forallb_forall. intros r I.
    destruct (H r I) as (p & -> & P). exact P.
Qed.
Lemma node_ok (st : state) l m e n : invariant (st_sketch _ st) -> read_modeling l [] = Ok m -> read_item detail_node e = Ok n ->
  (is_ok (find_node st m n) <-> good_node (st_sketch _ st) l e).
Proof.
  intros I M N. pose proof (node_key float_parse e n N) as K. unfold ModelValFile.find_node.
  assert (W : well_written float_parse node_attributes e) by (apply (read_item_good float_parse _ _ e agree_node); eexists; exact N).
  destruct (proj2 (modeling_ok l []) m M (key_of float "object_id" n)) as [(e' & i & It & F & ->)|[No ->]]; cbn [bind].
  - destruct (modeling_keys float_parse e' i F) as [_ K2]. destruct (key_of float "object_id" i) as [z|] eqn:Ko.
    + unfold get_operation. destruct (assoc ModelSketch.key_eqb (KeyId z) (op_dict (st_sketch _ st))) as [j|] eqn:A; cbn [bind].
      * destruct (found_op _ z j I A) as (o & O & Oz). rewrite (print_ok st j o O). split.
        -- intros H. split; [exact W|]. exists (key_of float "object_id" n), e', z, o. do 3 (split; [assumption|]). split; [exact (nth_error_In _ _ O)|]. auto.
        -- intros (_ & k & e2 & z2 & o2 & A1 & A2 & A3 & A4 & A5 & A6). pose proof (refers_unique e _ _ _ A1 K). subst k. rewrite (item_of_unique _ _ _ _ A2 It) in A3.
           pose proof (refers_unique e' _ _ _ A3 K2) as Ez. injection Ez as ->. apply In_nth_error in A4. destruct A4 as (j2 & O2).
           pose proof (found_id _ j2 o2 I O2) as Fd. unfold found in Fd. rewrite A5, A in Fd. injection Fd as <-. rewrite O in O2. injection O2 as <-. exact A6.
      * split; [intros [a1 H]; discriminate H|]. intros (_ & k & e2 & z2 & o2 & A1 & A2 & A3 & A4 & A5 & A6). pose proof (refers_unique e _ _ _ A1 K). subst k.
        rewrite (item_of_unique _ _ _ _ A2 It) in A3. pose proof (refers_unique e' _ _ _ A3 K2) as Ez. injection Ez as ->. apply In_nth_error in A4. destruct A4 as (j2 & O2).
        pose proof (found_id _ j2 o2 I O2) as Fd. unfold found in Fd. rewrite A5 in Fd. congruence.
    + split; [intros [a1 H]; discriminate H|]. intros (_ & k & e2 & z2 & o2 & A1 & A2 & A3 & _). pose proof (refers_unique e _ _ _ A1 K). subst k.
      rewrite (item_of_unique _ _ _ _ A2 It) in A3. pose proof (refers_unique e' _ _ _ A3 K2). discriminate.
  - split; [intros [a1 H]; discriminate H|]. intros (_ & k & e2 & z2 & o2 & A1 & (b & a & -> & R & _) & _). pose proof (refers_unique e _ _ _ A1 K). subst k.
    exfalso. apply (No e2); [apply in_or_app; right; left; reflexivity|exact R].
Qed.
Lemma traverse_ok {A B} (f : A -> result B) l : is_ok (traverse f l) <-> Forall (fun a => is_ok (f a)) l.
Proof.
  induction l as [|a l IH]; cbn [traverse]; [split; [constructor|intros _; eexists; reflexivity]|].
  destruct (f a) as [b|x] eqn:F; cbn [bind].
  - destruct (traverse f l) as [m|x]; cbn [bind].
    + split; [|intros _; eexists; reflexivity]. intros _. constructor; [rewrite F; eexists; reflexivity|]. apply IH. eexists; reflexivity.
    + split; [intros [a1 H]; discriminate H|]. intros H. inversion H as [|? ? _ T]; subst. destruct (proj2 IH T) as [a1 E]. discriminate E.
  - split; [intros [a1 H]; discriminate H|]. intros H. inversion H as [|? ? T]; subst. destruct T as [a1 E]. congruence.
Qed.
Lemma nodes_ok (st : state) s l m ch : s = st_sketch _ st -> invariant s -> read_modeling l [] = Ok m ->
  ((exists n, traverse (read_item detail_node) ch = Ok n /\ Forall (fun i => is_ok (find_node st m i)) n) <-> Forall (good_node s l) ch).
Proof.
  intros -> I M. induction ch as [|e ch IH]; cbn [traverse].
  - split; [constructor|]. intros _. exists []. split; [reflexivity|constructor].
  - split.
    + intros (n & E & F). destruct (read_item detail_node e) as [i|x] eqn:R; [|discriminate]. cbn [bind] in E.
      destruct (traverse (read_item detail_node) ch) as [n'|x]; [|discriminate]. cbn [bind] in E. injection E as <-. inversion F as [|? ? F1 F2]; subst.
      constructor; [apply (node_ok st l m e i I M R), F1|]. apply IH. eauto.
    + intros H. inversion H as [|? ? G H']; subst. destruct (proj2 IH H') as (n & E & F).
      destruct (proj2 (read_item_good float_parse _ _ e agree_node) (proj1 G)) as (i & R). exists (i :: n). rewrite R, E. split; [reflexivity|].
      constructor; [apply (node_ok st l m e i I M R), G|exact F].
Qed.
Lemma no_nodes e : tag_is (lit "nodes") e = true -> ~ one_of detail_items e.
Proof.
  intros T (tag & l & a & b & c & In & -> & _). cbn in T. destruct In as [H|[H|[H|[]]]]; injection H as <- <-; discriminate.
Qed.
Lemma parts_ok (st : state) l m ch : invariant (st_sketch _ st) -> read_modeling l [] = Ok m -> forall ns,
  ((exists n, read_parts ch ns = Ok n /\ Forall (fun i => is_ok (find_node st m i)) n) <->
   Forall (fun i => is_ok (find_node st m i)) ns /\ forall x, In x ch ->
    (exists a b k, x = Node (lit "nodes") a b k /\ Forall (good_node (st_sketch _ st) l) k) \/ one_of detail_items x).
Proof.
  intros I M. induction ch as [|x ch IH]; intros ns; cbn [ModelValFile.read_parts].
  - split; [intros (n & E & F); injection E as <-; split; [exact F|intros x []]|intros [F _]; eauto].
  - destruct (tag_is (lit "nodes") x) eqn:T.
    + destruct (tag_is_node _ _ T) as (a & b & k & ->). cbn [children]. pose proof (nodes_ok st _ l m k eq_refl I M) as N. split.
      * intros (n & E & F). destruct (traverse (read_item detail_node) k) as [n1|] eqn:R; [|discriminate E]. cbn [bind] in E.
        destruct (proj1 (IH (ns ++ n1)) (ex_intro _ n (conj E F))) as [F1 F2]. apply Forall_app in F1. destruct F1 as [F1 F3].
        split; [exact F1|]. intros x [<-|X]; [left; exists a, b, k; split; [reflexivity|apply N; eauto]|exact (F2 x X)].
      * intros [F H]. destruct (H _ (or_introl eq_refl)) as [(a' & b' & k' & E & G)|O]; [|destruct (no_nodes _ T O)].
        injection E as <- <- <-. destruct (proj2 N G) as (n1 & -> & F1). cbn [bind]. apply IH. split; [apply Forall_app; auto|]. intros x X. apply H. right. exact X.
    + pose proof (from_xml_good float_parse _ _ x detail_tables) as G. split.
      * intros (n & E & F). destruct (from_xml detail_tags x) as [i|]; [|discriminate E]. cbn [bind] in E.
        destruct (proj1 (IH ns) (ex_intro _ n (conj E F))) as [F1 F2]. split; [exact F1|]. intros y [<-|X]; [right; apply G; eexists; reflexivity|exact (F2 y X)].
      * intros [F H]. destruct (H x (or_introl eq_refl)) as [(a' & b' & k' & -> & _)|O].
        { rewrite tag_is_same in T. discriminate. }
        destruct (proj2 G O) as [i ->]. cbn [bind]. apply IH. split; [exact F|]. intros y Y. apply H. right. exact Y.
Qed.
Lemma detail_ok (st : state) l m e : invariant (st_sketch _ st) -> read_modeling l [] = Ok m ->
  (is_ok (read_detail st m e) <-> good_detail (st_sketch _ st) l e).
Proof.
  intros I M. unfold ModelValFile.read_detail, SpecValFile.good_detail. pose proof (read_item_good float_parse _ _ e agree_detail) as G.
  pose proof (parts_ok st l m (children e) I M []) as P. destruct (read_item detail e) as [i|x]; cbn [bind].
  - split.
    + intros [a1 H]. split; [apply G; eexists; reflexivity|]. destruct (read_parts (children e) []) as [n|]; [|discriminate H]. cbn [bind] in H.
      apply (proj1 P). exists n. split; [reflexivity|]. apply traverse_ok. destruct (traverse (find_node st m) n); [eexists; reflexivity|discriminate H].
    + intros [_ H]. destruct (proj2 P (conj (Forall_nil _) H)) as (n & -> & F). cbn [bind]. destruct (proj2 (traverse_ok _ _) F) as [u ->]. eexists; reflexivity.
  - split; [intros [a1 H]; discriminate H|]. intros [W _]. destruct (proj2 G W) as [a1 E]. discriminate E.
Qed.

(** *** The calculations *)
Lemma calculations_all l els : Forall2 calculation l els -> forall st : state,
  read_calculations float float_str float_parse db black parse l st = read_all float float_str float_parse db black parse els st.
Proof.
  induction 1 as [|e el l els (b & c & ->) F IH]; intros st; [reflexivity|]. cbn [read_calculations read_all]. destruct el as [tg at_]. cbn [e_tag e_attrib].
  destruct (read float float_str float_parse db black parse {| e_tag := tg; e_attrib := at_ |} st) as [[v|x] st']; [apply IH|reflexivity].
Qed.

Section Files.
Context {vit : Type} (exists_file : text -> bool) (beside : text -> text) (load : text -> result vit) (values : vit -> result (list (string * Rdefinitions.R))).
Notation read_draw := (read_draw float float_str float_parse db black parse vit values).
Notation read_draws := (read_draws float float_str float_parse db black parse vit values).
Notation read_file := (read_file float float_str float_parse db black parse vit exists_file beside load values).
Notation write_draw := (write_draw float float_str float_parse db).
Notation write_file := (write_file float float_str float_parse db).
Notation measured := (measured values).
Notation resolved := (resolved exists_file beside load).

Lemma draw_ok v piece name l els mo de m c st : lookup (attributes piece) (lit "name") = Some name -> measured v m ->
  holds piece "calculation" l -> Forall2 calculation l els -> holds piece "modeling" mo -> holds piece "details" de ->
  read_piece float float_str float_parse db black parse els (empty float c m) = (Ok tt, st) ->
  (is_ok (fst (read_draw v piece c)) <-> Forall (one_of modeling_items) mo /\ Forall (good_detail (st_sketch _ st) mo) de) /\
  (forall r, fst (read_draw v piece c) = Ok r -> r = (Some name, st)) /\ snd (read_draw v piece c) = counter (st_sketch _ st).
Proof.
  intros Hn Hm Hc Fc Hmo Hde R. unfold ModelValFile.read_draw. rewrite Hn. cbn [bind].
  replace (match v with Some v => values v | None => Ok [] end) with (Ok m) by (destruct v; cbn in Hm; [symmetry; exact Hm|subst; reflexivity]).
  cbn [bind]. rewrite (holds_iterate _ _ _ Hc). cbn [bind]. rewrite (calculations_all l els Fc).
  unfold read_piece in R.
  pose proof (read_all_drafted float_str float_parse db black parse m els _ (empty_drafted c m)) as D.
  destruct (read_all float float_str float_parse db black parse els (empty float c m)) as [[u|x] st0] eqn:Ra; [|discriminate R]. cbn [snd] in D.
  pose proof (eval_sigs _ (reachable_invariant _ (drafted_reachable m st0 D))) as (_ & _ & Iv).
  destruct (eval_sketch (st_sketch float st0)) as [[[]|x] s] eqn:Ev; [|discriminate R]. injection R as <-. cbn [snd] in Iv.
  cbn [bind fst snd]. rewrite (holds_iterate _ _ _ Hmo), (holds_iterate _ _ _ Hde). cbn [bind st_sketch].
  destruct (modeling_ok mo []) as [Mo _].
  destruct (read_modeling mo []) as [mm|x] eqn:Em; cbn [bind].
  - assert (T : is_ok (traverse (read_detail (State float s (st_extra float st0)) mm) de) <-> Forall (good_detail s mo) de).
    { rewrite traverse_ok. rewrite !Forall_forall. split; intros H e I; [apply (detail_ok (State float s (st_extra float st0)) mo mm e Iv Em), H, I|].
      apply (detail_ok (State float s (st_extra float st0)) mo mm e Iv Em). exact (H e I). }
    destruct (traverse (read_detail (State float s (st_extra float st0)) mm) de) as [us|x]; cbn [bind].
    + split; [|split; [intros r E; congruence|reflexivity]]. split; [|intros _; eexists; reflexivity]. intros _. split; [apply Mo; eexists; reflexivity|apply T; eexists; reflexivity].
    + split; [|split; [intros r E; discriminate E|reflexivity]]. split; [intros [a1 H]; discriminate H|]. intros [_ H]. destruct (proj2 T H) as [a1 E]. discriminate E.
  - split; [|split; [intros r E; discriminate E|reflexivity]]. split; [intros [a1 H]; discriminate H|]. intros [H _]. destruct (proj2 Mo H) as [a1 E]. discriminate E.
Qed.

(** *** Writing *)
Lemma xml_text_checked t : xml_text t -> checked t = Ok t.
Proof.
  intros H. unfold checked. rewrite (ProofXml.xml_char_spec t); [reflexivity|exact H].
Qed.
Definition as_draw (n : text) (l : list element) : xml :=
  Node (lit "draw") [(lit "name", n)] None
    [Node (lit "calculation") [] None (map (fun e => Node (e_tag e) (e_attrib e) None []) l);
     Node (lit "modeling") [] None []; Node (lit "details") [] None []].
Lemma as_draw_stored n l : stored (as_draw n l) = as_draw n l.
Proof. unfold as_draw. cbn [stored map]. rewrite map_map. reflexivity. Qed.
Lemma as_draw_parts n l : holds (as_draw n l) "calculation" (map (fun e => Node (e_tag e) (e_attrib e) None []) l) /\
  holds (as_draw n l) "modeling" [] /\ holds (as_draw n l) "details" [].
Proof.
  split; [|split].
  - exists [], [], None. eexists. split; [reflexivity|]. intros a b k [].
  - eexists [_], [], None, [_]. split; [reflexivity|]. intros a b k [H|[]]. discriminate H.
  - eexists [_; _], [], None, []. split; [reflexivity|]. intros a b k [H|[H|[]]]; discriminate H.
Qed.
Lemma scope_written : faithful float_str float_parse -> forall m s, good_scope parse m s ->
  exists x, write_draw s = Ok x /\ stored x = x /\ tag_is (lit "draw") x = true /\ forall v c, measured v m ->
    (forall o, In o (ops (st_sketch _ (snd s))) -> (c < o_id o)%Z) ->
    exists s', read_draw v x c = (Ok s', last (map o_id (ops (st_sketch _ (snd s)))) c) /\ same_scope parse s s'.
Proof.
  intros Hf m [n st1] ((name & Hn & Xn) & (st & D & Ev) & W). cbn [fst snd] in *. subst n.
  destruct (positions_round_trip float_str float_parse db black parse Hf m st st1 D Ev W) as (l & El & K).
  exists (as_draw name l). unfold ModelValFile.write_draw. cbn [fst snd]. rewrite (xml_text_checked _ Xn). cbn [bind]. rewrite El. cbn [bind].
  split; [reflexivity|]. split; [apply as_draw_stored|]. split; [reflexivity|]. intros v c Hm Hc.
  destruct (K c Hc) as (st' & st2 & A1 & A2 & (A3 & A4) & A5 & A6 & A7 & A8).
  destruct (as_draw_parts name l) as (P1 & P2 & P3).
  assert (Rp : read_piece float float_str float_parse db black parse l (empty float c m) = (Ok tt, st2)).
  { unfold read_piece. rewrite A1, A3. destruct st2. cbn in *. rewrite A4. reflexivity. }
  assert (Fc : Forall2 calculation (map (fun e => Node (e_tag e) (e_attrib e) None []) l) l).
  { clear. induction l as [|e l IH]; constructor; [exists None, []; reflexivity|exact IH]. }
  destruct (draw_ok v (as_draw name l) name _ l [] [] m c st2 eq_refl Hm P1 Fc P2 P3 Rp) as (B1 & B2 & B3).
  destruct (proj2 B1 (conj (Forall_nil _) (Forall_nil _))) as (r & E). pose proof (B2 r E) as ->.
  exists (Some name, st2). split.
  - rewrite (surjective_pairing (read_draw v (as_draw name l) c)), E, B3, A5. reflexivity.
  - split; [reflexivity|]. cbn [fst snd]. split; [exact A6|]. split; [exact A7|]. intros i d Op. destruct (A8 i d Op) as (d' & O' & S' & _). eauto.
Qed.
Lemma last_in {A} (l : list A) a : last l a = a \/ In (last l a) l.
Proof. induction l as [|x [|y l] IH]; [left; reflexivity|right; left; reflexivity|]. right. destruct IH as [E|I]; [|right; exact I]. cbn [last] in *. right. revert E. clear. intros. 
  change (In (last (y :: l) a) (y :: l)). clear. revert y. induction l as [|z l IH]; intros y; [left; reflexivity|]. right. exact (IH z). Qed.
Lemma scopes_written : faithful float_str float_parse -> forall m scopes, Forall (good_scope parse m) scopes ->
  exists l, traverse write_draw scopes = Ok l /\ map stored l = l /\ Forall (fun x => tag_is (lit "draw") x = true) l /\ forall v c, measured v m ->
    ForallOrdPairs before scopes -> (forall s o, In s scopes -> In o (ops (st_sketch _ (snd s))) -> (c < o_id o)%Z) ->
    exists scopes' c', read_draws v l c = (Ok scopes', c') /\ Forall2 (same_scope parse) scopes scopes'.
Proof.
  intros Hf m scopes F. induction F as [|s scopes G F IH]; cbn [traverse].
  - exists []. split; [reflexivity|]. split; [reflexivity|]. split; [constructor|]. intros v c _ _ _. exists [], c. split; [reflexivity|constructor].
  - destruct (scope_written Hf m s G) as (x & -> & Sx & Tx & K). destruct IH as (l & -> & Sl & Tl & Kl). cbn [bind]. exists (x :: l).
    split; [reflexivity|]. split; [cbn; congruence|]. split; [constructor; assumption|]. intros v c Hm Ord Hc.
    inversion Ord as [|? ? Ob Ord']; subst. rewrite Forall_forall in Ob.
    destruct (K v c Hm) as (s' & R & Sm); [intros o O; exact (Hc s o (or_introl eq_refl) O)|].
    set (c1 := last (map o_id (ops (st_sketch float (snd s)))) c) in *.
    destruct (Kl v c1 Hm Ord') as (t & c' & Rt & St).
    { intros s2 o I O. subst c1. destruct (last_in (map o_id (ops (st_sketch float (snd s)))) c) as [->|Il]; [exact (Hc s2 o (or_intror I) O)|].
      apply in_map_iff in Il. destruct Il as (o1 & <- & O1). exact (Ob s2 I o1 o O1 O). }
    exists (s' :: t), c'. cbn [ModelValFile.read_draws]. rewrite R, Rt. split; [reflexivity|]. constructor; assumption.
Qed.
Lemma filter_true {A} (f : A -> bool) l : Forall (fun x => f x = true) l -> filter f l = l.
Proof. induction 1 as [|x l E F IH]; [reflexivity|]. cbn. rewrite E, IH. reflexivity. Qed.
Lemma file_round_trip : faithful float_str float_parse -> forall unit path v m scopes, unit <> [] -> xml_text unit -> resolved path v -> measured v m ->
  Forall (good_scope parse m) scopes -> ForallOrdPairs before scopes ->
  exists x, write_file path (Pattern float (Some unit) scopes) = Ok x /\ forall c,
    (forall s o, In s scopes -> In o (ops (st_sketch _ (snd s))) -> (c < o_id o)%Z) ->
    exists scopes' c', read_file (stored x) c = (Ok (v, Pattern float (Some unit) scopes'), c') /\ Forall2 (same_scope parse) scopes scopes'.
Proof.
  intros Hf unit path v m scopes Un Ux Rv Hm G Ord. destruct (scopes_written Hf m scopes G) as (l & El & Sl & Tl & K).
  unfold ModelValFile.write_file. cbn [p_unit p_scopes]. unfold checked_body at 1. rewrite (xml_text_checked _ Ux). cbn [bind].
  assert (Ep : checked_body path = Ok path).
  { destruct path as [t|]; [|reflexivity]. destruct v as [v|]; [|contradiction]. destruct Rv as (_ & Xt & _). cbn. rewrite (xml_text_checked _ Xt). reflexivity. }
  rewrite Ep. cbn [bind]. rewrite El. cbn [bind]. eexists. split; [reflexivity|]. intros c Hc.
  destruct (K v c Hm Ord Hc) as (scopes' & c' & R & S). exists scopes', c'. split; [|exact S].
  cbn [stored map app]. rewrite Sl. unfold ModelValFile.read_file.
  set (root := Node (lit "pattern") _ _ _).
  assert (Eu : text_element root "unit" = Some unit).
  { unfold root, text_element, first_element, elements. cbn. destruct unit; [congruence|reflexivity]. }
  assert (Ed : elements root "draw" = l).
  { unfold root, elements. cbn [children filter]. replace (tag_is (lit "draw") (Comment _)) with false by reflexivity.
    repeat match goal with |- context [if tag_is (lit "draw") (Node (lit ?t) _ _ _) then _ else _] =>
      change (tag_is (lit "draw") (Node (lit t) _ _ _)) with false; cbn match end.
    apply filter_true, Tl. }
  assert (Em : read_measurements vit exists_file beside load root = Ok v).
  { unfold read_measurements. replace (first_element root "measurements") with (Some (Node (lit "measurements") [] (match path with Some [] => None | b => b end) []))
      by (unfold root, first_element, elements; reflexivity).
    cbn [body]. destruct path as [t|]; destruct v as [v|]; try contradiction; [|reflexivity].
    destruct Rv as (Tn & _ & [[A B]|(A & B & C)]); destruct t as [|ch t]; try congruence.
    - rewrite A, A, B. reflexivity.
    - rewrite A, B, C. reflexivity. }
  rewrite Eu, Em, Ed. cbn [bind]. rewrite R. reflexivity.
Qed.
Lemma unit_lost path p x c : p_unit _ p = None \/ p_unit _ p = Some [] -> write_file path p = Ok x -> fst (read_file (stored x) c) = Raise NameError.
Proof.
  unfold ModelValFile.write_file. intros Hu H. destruct (checked_body (p_unit float p)) as [u|] eqn:Cu; [|discriminate H]. cbn [bind] in H.
  destruct (checked_body path) as [pa|]; [|discriminate H]. cbn [bind] in H. destruct (traverse write_draw (p_scopes float p)) as [l|]; [|discriminate H]. cbn [bind] in H.
  injection H as <-. assert (Eu : match u with Some [] => None | b => b end = None).
  { destruct Hu as [E|E]; rewrite E in Cu; cbn in Cu; injection Cu as <-; reflexivity. }
  cbn [stored map]. unfold ModelValFile.read_file.
  match goal with |- context [text_element ?r "unit"] => set (root := r) end.
  assert (Et : text_element root "unit" = None) by (unfold root, text_element, first_element, elements; cbn; exact Eu).
  rewrite Et. reflexivity.
Qed.
Lemma measurements_lost t p x c : p_unit _ p <> None -> p_unit _ p <> Some [] -> t <> [] -> exists_file t = false -> exists_file (beside t) = false ->
  write_file (Some t) p = Ok x -> fst (read_file (stored x) c) = Raise NameError.
Proof.
  unfold ModelValFile.write_file. intros U1 U2 Tn A B H. destruct (p_unit float p) as [u|] eqn:Pu; [|congruence]. cbn [checked_body] in H.
  destruct (checked u) as [u'|] eqn:Cu; [|discriminate H]. assert (u' = u) by (unfold checked in Cu; destruct (forallb xml_char u); congruence). subst u'. cbn [bind] in H.
  destruct (checked t) as [t'|] eqn:Ct; [|discriminate H]. assert (t' = t) by (unfold checked in Ct; destruct (forallb xml_char t); congruence). subst t'. cbn [bind] in H.
  destruct (traverse write_draw (p_scopes float p)) as [l|]; [|discriminate H]. cbn [bind] in H. injection H as <-.
  cbn [stored map]. unfold ModelValFile.read_file.
  match goal with |- context [text_element ?r "unit"] => set (root := r) end.
  assert (Et : text_element root "unit" = Some u) by (unfold root, text_element, first_element, elements; cbn; destruct u as [|h u]; [exfalso; apply U2; first [reflexivity | exact Pu]|reflexivity]).
  rewrite Et. cbn [bind]. unfold read_measurements.
  replace (first_element root "measurements") with (Some (Node (lit "measurements") [] (Some t) []))
    by (unfold root, first_element, elements; destruct t; [congruence|reflexivity]).
  cbn [body]. rewrite A, B. reflexivity.
Qed.
Lemma unnamed_scope path p s : In s (p_scopes _ p) -> fst s = None -> ~ is_ok (write_file path p).
Proof.
  unfold ModelValFile.write_file. intros I E [x H]. destruct (checked_body (p_unit float p)) as [u|]; [|discriminate H]. cbn [bind] in H.
  destruct (checked_body path) as [pa|]; [|discriminate H]. cbn [bind] in H. destruct (traverse write_draw (p_scopes float p)) as [l|] eqn:T; [|discriminate H].
  assert (O : is_ok (traverse write_draw (p_scopes float p))) by (eexists; exact T). rewrite traverse_ok, Forall_forall in O. destruct (O s I) as [y Y].
  unfold ModelValFile.write_draw in Y. rewrite E in Y. discriminate Y.
Qed.
End Files.
Lemma scope_read m n c l ds st : readable float_parse db c [] l ds -> Forall writable ds -> xml_text n ->
  read_piece float float_str float_parse db black parse l (empty float c m) = (Ok tt, st) -> good_scope parse m (Some n, st).
Proof.
  intros R W X P. split; [exists n; auto|]. cbn [snd]. unfold read_piece in P.
  destruct (read_readable float_str float_parse db black parse l c [] ds (empty float c m) [] R) as (st' & E & I & L1 & L2 & O); try reflexivity.
  { apply new_sketch_invariant. } { intros z []. } { intros [|i] d D; discriminate. }
  rewrite E in P. destruct (eval_sketch (st_sketch float st')) as [r s] eqn:Ev. injection P as -> <-.
  pose proof (read_all_drafted float_str float_parse db black parse m l _ (empty_drafted c m)) as D. rewrite E in D. cbn [snd] in D.
  split; [exists st'; split; [exact D|split; [exact Ev|reflexivity]]|]. destruct (eval_sigs _ I) as (S & _). rewrite Ev in S. cbn [snd] in S.
  cbn [st_sketch app] in *. rewrite (sig_length _ _ S), L2. intros i Hi. destruct (nth_error ds i) as [d|] eqn:N; [|apply nth_error_None in N; lia].
  exists d. split; [|rewrite Forall_forall in W; exact (W d (nth_error_In _ _ N))]. apply (sigs_operation parse st'); [exact S|reflexivity|exact (O i d N)].
Qed.
End Pieces.
