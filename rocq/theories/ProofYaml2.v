From Coq Require Import String Ascii List Bool Arith ZArith Lia.
From Verif Require Import Base ModelFormula ModelMeasure ProofMeasure ModelYaml ModelYamlData SpecYaml.
Import ListNotations.

Section Fibres.
Variable other_str : yvalue -> text.
Notation load := (load_fibers other_str).
Definition well_db (db : database) : Prop := NoDup (map fst db) /\ Forall (fun p => fb_name (snd p) = fst p) db.
Definition names (db : database) : list text := map fb_name (db_iter db).
Lemma names_keys db : well_db db -> names db = map fst db.
Proof. intros (_ & F). unfold names, db_iter. induction F as [|p l E F IH]; cbn; [reflexivity|]. rewrite E, IH. reflexivity. Qed.
Lemma db_add_in db f : well_db db -> In (fb_name f) (names db) -> db_add db f = db.
Proof.
  intros W I. rewrite (names_keys db W) in I. unfold db_add. destruct (lookup db (fb_name f)) eqn:E; [reflexivity|]. apply lookup_none in E. contradiction.
Qed.
Lemma db_add_new db f : well_db db -> ~ In (fb_name f) (names db) -> db_add db f = db ++ [(fb_name f, f)] /\ well_db (db ++ [(fb_name f, f)]).
Proof.
  intros W I. rewrite (names_keys db W) in I. unfold db_add. pose proof (proj2 (lookup_none db _) I) as E. rewrite E. rewrite (set_new db _ f I). split; [reflexivity|].
  destruct W as (N & F). split.
  - rewrite map_app. cbn. clear - N I. induction (map fst db) as [|a l IH]; cbn; [repeat constructor; tauto|]. inversion N; subst. constructor.
    + rewrite in_app_iff. cbn. intros [H|[H|[]]]; [contradiction|]. apply I. left. auto.
    + apply IH; [assumption|]. intro H. apply I. right. exact H.
  - apply Forall_app. split; [exact F|]. repeat constructor.
Qed.
Lemma firsts_ext l : forall t t', (forall x, In x t <-> In x t') -> firsts t l = firsts t' l.
Proof.
  induction l as [|f l IH]; intros t t' H; cbn [firsts]; [reflexivity|].
  destruct (in_dec (list_eq_dec ascii_dec) (fb_name f) t) as [I|I], (in_dec (list_eq_dec ascii_dec) (fb_name f) t') as [J|J].
  - exact (IH _ _ H).
  - apply H in I. contradiction.
  - apply H in J. contradiction.
  - f_equal. apply IH. intro x. cbn. rewrite H. reflexivity.
Qed.
Lemma fold_add l : forall db, well_db db -> well_db (fold_left db_add l db) /\ db_iter (fold_left db_add l db) = db_iter db ++ firsts (names db) l.
Proof.
  induction l as [|f l IH]; intros db W; cbn [fold_left firsts]; [rewrite app_nil_r; auto|].
  destruct (in_dec (list_eq_dec ascii_dec) (fb_name f) (names db)) as [I|I].
  - rewrite (db_add_in db f W I). exact (IH db W).
  - destruct (db_add_new db f W I) as (-> & W'). destruct (IH _ W') as (W2 & E). split; [exact W2|]. rewrite E. unfold db_iter at 1. rewrite map_app. cbn [map snd].
    rewrite <- app_assoc. cbn [app]. fold (db_iter db). do 2 f_equal. apply firsts_ext. intro x. unfold names, db_iter. rewrite !map_app, in_app_iff. cbn. tauto.
Qed.
Lemma add_all_ok make l fs : Forall2 (fun kv f => make (fst kv) (snd kv) = Ok f) l fs ->
  forall db, db_add_all make db l = (fold_left db_add fs db, Ok tt).
Proof. induction 1 as [|[k v] f l fs E F IH]; intro db; cbn [db_add_all fold_left]; [reflexivity|]. cbn in E. rewrite E. apply IH. Qed.

Definition plant (p : text * text) : fiber := Fiber (fst p) Natural (lit "FiberType.Plant") (snd p).
Definition animal (p : text * text) : fiber := Fiber (fst p) Natural (lit "FiberType.Animal") (snd p).
Definition man_made (n : text) : fiber := Fiber n Synthetic (lit "None") (lit "None").
Lemma load_fold db data plants animals others :
  natural_fibres data "Plant Fibers" plants -> natural_fibres data "Animal Fibers" animals -> synthetic_fibres data others ->
  load db data = (fold_left db_add (map plant plants ++ map animal animals ++ map man_made others) db, Ok tt).
Proof.
  intros (n & En & ep & Ep & Fp) (n' & En' & ea & Ea & Fa) (es & Es & Fs). assert (n' = n) as -> by congruence.
  unfold load_fibers, section_items. rewrite En, Ep, Ea, Es. cbn [bind items add_section].
  rewrite (add_all_ok (natural other_str Plant) ep (map plant plants)).
  2:{ clear - Fp. induction Fp as [|[k v] p l l' (E & S) F IH]; cbn [map]; constructor; [|exact IH]. cbn in *. unfold natural. rewrite S, E. reflexivity. }
  cbn [then_do]. rewrite (add_all_ok (natural other_str Animal) ea (map animal animals)).
  2:{ clear - Fa. induction Fa as [|[k v] p l l' (E & S) F IH]; cbn [map]; constructor; [|exact IH]. cbn in *. unfold natural. rewrite S, E. reflexivity. }
  cbn [then_do]. rewrite (add_all_ok synthetic es (map man_made others)).
  2:{ clear - Fs. revert others Fs. induction es as [|[k v] es IH]; intros [|o os] H; try discriminate; cbn in *; constructor.
      - cbn. injection H as -> _. reflexivity.
      - apply IH. injection H as _ H. exact H. }
  rewrite !fold_left_app. reflexivity.
Qed.
Definition made (db : database) : Prop := exists l, db = fold_left db_add l [].
Lemma made_well db : made db -> well_db db.
Proof. intros (l & ->). apply fold_add. split; constructor. Qed.
Lemma fibres_ok db data plants animals others : made db ->
  natural_fibres data "Plant Fibers" plants -> natural_fibres data "Animal Fibers" animals -> synthetic_fibres data others ->
  exists db', load db data = (db', Ok tt) /\ made db' /\
    db_iter db' = db_iter db ++ firsts (map fb_name (db_iter db)) (map plant plants ++ map animal animals ++ map man_made others) /\
    (forall f, In f (db_iter db') -> db_get db' (fb_name f) = Ok f) /\
    (forall n f, db_get db' n = Ok f -> In f (db_iter db') /\ fb_name f = n) /\
    load db' data = (db', Ok tt).
Proof.
  intros M P A S. pose proof (made_well db M) as W. set (new := map plant plants ++ map animal animals ++ map man_made others).
  exists (fold_left db_add new db). destruct (fold_add new db W) as (W' & I). set (db' := fold_left db_add new db) in *.
  split; [exact (load_fold db data _ _ _ P A S)|]. split; [destruct M as (l & ->); exists (l ++ new); rewrite fold_left_app; reflexivity|].
  split; [exact I|]. split; [|split].
  - intros f F. unfold db_iter in F. apply in_map_iff in F as ([n g] & E & F). cbn in E. subst g. destruct W' as (N & K). rewrite Forall_forall in K. pose proof (K _ F) as Kn. cbn in Kn.
    unfold db_get. rewrite Kn. clear - N F. induction db' as [|[m h] l IH]; [destruct F|]. cbn in *. inversion N; subst. destruct F as [F|F].
    + injection F as -> ->. destruct (text_eqb_spec n n); [reflexivity|contradiction].
    + destruct (text_eqb_spec m n) as [->|_]; [exfalso; apply H1; change n with (fst (n, f)); apply in_map, F|exact (IH H2 F)].
  - intros n f G. unfold db_get in G. destruct (lookup db' n) eqn:E; [|discriminate]. injection G as ->. apply lookup_in in E. destruct W' as (_ & K). rewrite Forall_forall in K.
    split; [unfold db_iter; change f with (snd (n, f)); apply in_map, E|exact (K _ E)].
  - rewrite (load_fold db' data _ _ _ P A S). fold new. f_equal.
    assert (Q : forall l, (forall f, In f l -> In (fb_name f) (names db')) -> fold_left db_add l db' = db').
    { induction l as [|f l IH]; intro H; cbn [fold_left]; [reflexivity|]. rewrite (db_add_in db' f W' (H f (or_introl eq_refl))). apply IH. intros g G. apply H. right. exact G. }
    apply Q. intros f F. unfold names. rewrite I, map_app. apply in_or_app.
    assert (R : forall l t, In f l -> In (fb_name f) t \/ In (fb_name f) (map fb_name (firsts t l))).
    { induction l as [|g l IH]; intros t H; [destruct H|]. cbn [firsts]. destruct (in_dec (list_eq_dec ascii_dec) (fb_name g) t) as [J|J].
      - destruct H as [->|H]; [left; exact J|exact (IH t H)].
      - destruct H as [->|H]; [right; left; reflexivity|]. destruct (IH (fb_name g :: t) H) as [[E|K]|K]; [right; left; exact E|left; exact K|right; right; exact K]. }
    exact (R new (map fb_name (db_iter db)) F).
Qed.
(** A file without the last section: the call fails, the fibres of the others are there. *)
Lemma fibres_left db data plants animals :
  natural_fibres data "Plant Fibers" plants -> natural_fibres data "Animal Fibers" animals -> item data "Synthetic Fibers" = Raise KeyError ->
  load db data = (fold_left db_add (map plant plants ++ map animal animals) db, Raise KeyError).
Proof.
  intros (n & En & ep & Ep & Fp) (n' & En' & ea & Ea & Fa) Es. assert (n' = n) as -> by congruence.
  unfold load_fibers, section_items. rewrite En, Ep, Ea, Es. cbn [bind items add_section].
  rewrite (add_all_ok (natural other_str Plant) ep (map plant plants)).
  2:{ clear - Fp. induction Fp as [|[k v] p l l' (E & S) F IH]; cbn [map]; constructor; [|exact IH]. cbn in *. unfold natural. rewrite S, E. reflexivity. }
  cbn [then_do]. rewrite (add_all_ok (natural other_str Animal) ea (map animal animals)).
  2:{ clear - Fa. induction Fa as [|[k v] p l l' (E & S) F IH]; cbn [map]; constructor; [|exact IH]. cbn in *. unfold natural. rewrite S, E. reflexivity. }
  rewrite fold_left_app. reflexivity.
Qed.
End Fibres.

(** ** Fabrics *)
Lemma fabric_never to_float k : exists e, new_fabric to_float k = Raise e.
Proof.
  unfold new_fabric. destruct (required_pair _ k "bending") as [?|e]; cbn [bind]; [|eauto]. destruct (required_pair _ k "stretch") as [?|e]; cbn [bind]; [|eauto].
  destruct (required_float _ k "shear") as [?|e]; cbn [bind]; [|eauto]. destruct (required_float _ k "friction") as [?|e]; cbn [bind]; [|eauto].
  destruct (required_float _ k "weight") as [?|e]; cbn [bind]; [|eauto]. cbn. eauto.
Qed.
Lemma machine_needs other_str to_int to_float k m : new_machine other_str to_int to_float k = Ok m ->
  (exists v l, lookup k (lit "sitche_types") = Some v /\ elements Z (fun z => z) v = Ok l /\ sw_stitches m = l) /\
  to_int (or_none k "number_of_needles") = Ok (sw_needles m) /\ to_int (or_none k "number_of_loopers") = Ok (sw_loopers m) /\
  is_ok (to_float (or_none k "max_sewing_speed")) /\ is_ok (to_float (or_none k "needle_gauge")) /\ is_ok (to_float (or_none k "overedging_width")).
Proof.
  unfold new_machine. intro H.
  destruct (elements Z (fun z => z) (or_none k "sitche_types")) as [l|e] eqn:E; cbn [bind] in H; [|discriminate].
  destruct (to_int (or_none k "number_of_needles")) as [n|e] eqn:E1; cbn [bind] in H; [|discriminate].
  destruct (to_int (or_none k "number_of_loopers")) as [p|e] eqn:E2; cbn [bind] in H; [|discriminate].
  destruct (to_float (or_none k "max_sewing_speed")) as [a|e] eqn:E3; cbn [bind] in H; [|discriminate].
  destruct (to_float (or_none k "needle_gauge")) as [b|e] eqn:E4; cbn [bind] in H; [|discriminate].
  destruct (to_float (or_none k "overedging_width")) as [c|e] eqn:E5; cbn [bind] in H; [|discriminate].
  assert (M : m = {| sw_name := str_of Z other_str (or_none k "name"); sw_stitches := l; sw_needles := n; sw_loopers := p;
        sw_length := or_none k "sitch_length"; sw_width := or_none k "sitch_width"; sw_feed := str_of Z other_str (or_none k "feed_system") |}) by congruence.
  subst m. split; [|unfold is_ok; repeat split; eauto].
  unfold or_none in E. destruct (lookup k (lit "sitche_types")) as [v|]; [|discriminate]. exists v, l. auto.
Qed.

Section Refused.
Context {number sympy : Type}.
Variables (of_int : Z -> number) (other_str : yaml number -> text) (sympify : text -> result sympy) (float : number -> number).
Notation load_items := (load_items number of_int other_str sympy sympify float).
Notation load_data := (load_data number of_int other_str sympy sympify float).
Notation add := (add number (expression number sympy) (read_expression number sympy sympify) Python float).
Lemma add_keeps s k v f d n : lookup (ms_items _ _ s) n <> None -> lookup (ms_items _ _ (fst (add s k v f d))) n <> None.
Proof.
  intros H. unfold ModelMeasure.add. destruct (new_measurement _ _ _ _ _ _ _ _ _) as [m|e]; [|exact H].
  destruct (lookup (ms_items _ _ s) (m_name _ _ m)); [exact H|]. cbn. rewrite ProofMeasure.lookup_set. destruct (text_eqb _ n); [discriminate|exact H].
Qed.
Lemma load_refused before name data after : forall s (P : measurements number (expression number sympy) -> Prop), P s ->
  (forall s k v f d, P s -> P (fst (add s k v f d))) ->
  (forall s, P s -> exists e, snd (load_items s [(name, data)]) = Raise e) ->
  exists e, snd (load_data s (YMap (before ++ (name, data) :: after))) = Raise e.
Proof.
  intros s P H K R. unfold ModelYaml.load_data. cbn [items]. revert s H. induction before as [|[k d] before IH]; intros s H; cbn [app ModelYaml.load_items].
  - destruct (R s H) as [e E]. cbn [ModelYaml.load_items] in E. destruct (fields _ _ data) as [[[v f] x]|]; [|eexists; reflexivity].
    destruct (add s (key_str name) (as_value number other_str v) (str_of number other_str f) (str_of number other_str x)) as [s1 [m|e']]; [discriminate E|eexists; reflexivity].
  - destruct (fields _ _ d) as [[[v f] x]|]; [|eexists; reflexivity].
    pose proof (K s (key_str k) (as_value number other_str v) (str_of number other_str f) (str_of number other_str x) H) as H'.
    destruct (add s (key_str k) (as_value number other_str v) (str_of number other_str f) (str_of number other_str x)) as [s1 [m|e']]; [apply IH; exact H'|eexists; reflexivity].
Qed.
Lemma taken_refused s before name n data after m : validate_name (key_str name) = Ok n -> get_item _ _ s n = Ok m ->
  exists e, snd (load_data s (YMap (before ++ (name, data) :: after))) = Raise e.
Proof.
  intros V G. apply (load_refused before name data after s (fun s => lookup (ms_items _ _ s) n <> None)).
  - unfold get_item in G. destruct (lookup (ms_items _ _ s) n); congruence.
  - intros s' k v f d. apply add_keeps.
  - intros s' H. cbn [ModelYaml.load_items]. destruct (fields _ _ data) as [[[v f] x]|]; [|eexists; reflexivity].
    assert (A : exists e, snd (add s' (key_str name) (as_value number other_str v) (str_of number other_str f) (str_of number other_str x)) = Raise e).
    { unfold ModelMeasure.add, new_measurement. rewrite V. cbn [bind]. destruct (as_value number other_str v) as [y|t].
      - cbn [m_name]. destruct (lookup (ms_items _ _ s') n); [eexists; reflexivity|congruence].
      - destruct (read_expression _ _ _ t) as [ex|]; [|eexists; reflexivity]. cbn [bind m_name]. destruct (lookup (ms_items _ _ s') n); [eexists; reflexivity|congruence]. }
    destruct A as [e A]. destruct (add s' (key_str name) (as_value number other_str v) (str_of number other_str f) (str_of number other_str x)) as [s1 r].
    cbn [snd] in A. subst r. eexists. reflexivity.
Qed.
Lemma two_values_refused s before name x y after : exists e, snd (load_data s (YMap (before ++ (name, YList [x; y]) :: after))) = Raise e.
Proof. apply (load_refused before name (YList [x; y]) after s (fun _ => True)); auto. intros s' _. eexists. reflexivity. Qed.
End Refused.

Lemma missing_section other_str db data natural e : item data "Natural Fibers" = Ok natural ->
  (section_items natural "Plant Fibers" = Raise e -> load_fibers other_str db data = (db, Raise e)) /\
  (forall plants, natural_fibres data "Plant Fibers" plants -> section_items natural "Animal Fibers" = Raise e ->
     load_fibers other_str db data = (fold_left db_add (map (fun p => Fiber (fst p) Natural (lit "FiberType.Plant") (snd p)) plants) db, Raise e)).
Proof.
  intros N. split.
  - intros P. unfold load_fibers. rewrite N, P. reflexivity.
  - intros plants (n' & N' & ep & E & F) A. rewrite N in N'. injection N' as <-. unfold load_fibers. rewrite N, A. unfold section_items at 1. rewrite E. cbn [bind items add_section].
    rewrite (add_all_ok (ModelYaml.natural other_str Plant) ep (map (fun p => Fiber (fst p) Natural (lit "FiberType.Plant") (snd p)) plants)); [reflexivity|].
    clear -F. induction F as [|[k d] [n s] ep plants [K D] F IH]; [constructor|]. cbn [map]. constructor; [|exact IH].
    cbn [fst snd] in *. subst k. unfold ModelYaml.natural. rewrite D. reflexivity.
Qed.
