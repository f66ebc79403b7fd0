(** C139-C143: the YAML files of measurements, of standard measurements and of textiles. *)
From Coq Require Import String Ascii List Bool Arith ZArith Permutation Lia.
From Verif Require Import Base ModelFormula ModelMeasure SpecMeasure ModelYaml ModelYamlData SpecYaml ProofYaml ProofYaml2.
From Verif Require ModelXml.
Import ListNotations.

(** ** C139: measurements in a YAML file *)
(** Saving always fails, and leaves an empty file. *)
Theorem C139_save_refuted {number sympy} as_number sympy_str number_str dump (s : measurements number (expression number sympy)) :
  save_as_yaml number sympy as_number sympy_str number_str dump s = ([], Raise LookupError).
Proof. reflexivity. Qed.
(** Loading always fails, and leaves the set as it is. *)
Theorem C139_load_refuted {number sympy} of_int other_str sympify float load (s : measurements number (expression number sympy)) content :
  load_yaml number of_int other_str sympy sympify float load s content = (s, Raise LookupError).
Proof. reflexivity. Qed.

(** Were the codec known: what is written of any set is read as a set of the same measurements, in the order of the names. *)
Theorem C139_round_partial {number sympy W} of_int other_str sympify as_number sympy_str number_str float (worth : expression number sympy -> W) subs evalf h :
  let s := measure_run number (expression number sympy) (read_expression number sympy sympify) Python float subs evalf h in
  Forall (fun m => legible sympify as_number sympy_str number_str worth (m_expression _ _ m)) (iter _ _ s) ->
  exists s', load_data number of_int other_str sympy sympify float (empty_set _ _) (saved_data number sympy as_number sympy_str number_str s) = (s', Ok tt) /\
    exists l, Permutation l (iter _ _ s) /\ ascending (map (m_name _ _) l) /\ Forall2 (same_measurement worth) l (iter _ _ s').
Proof. exact (round_ok of_int other_str sympify as_number sympy_str number_str float worth subs evalf h). Qed.

(** A name which is taken and an entry of two values are refused, wherever they are in the file. *)
Theorem C139_taken {number sympy} of_int other_str sympify float (s : measurements number (expression number sympy)) before name n data after m :
  validate_name (key_str name) = Ok n -> get_item _ _ s n = Ok m ->
  exists e, snd (load_data number of_int other_str sympy sympify float s (YMap (before ++ (name, data) :: after))) = Raise e.
Proof. exact (taken_refused of_int other_str sympify float s before name n data after m). Qed.
Print Assumptions C139_taken.
Theorem C139_two_values {number sympy} of_int other_str sympify float (s : measurements number (expression number sympy)) before name x y after :
  exists e, snd (load_data number of_int other_str sympy sympify float s (YMap (before ++ (name, YList [x; y]) :: after))) = Raise e.
Proof. exact (two_values_refused of_int other_str sympify float s before name x y after). Qed.
Print Assumptions C139_two_values.

(** But a number comes back as a text, whose value has three digits: 1234 comes back as 1230. *)
Definition digits (t : text) : result Z :=
  fold_left (fun r c => match r with
    | Raise e => Raise e
    | Ok n => let d := (Z.of_nat (nat_of_ascii c) - 48)%Z in if ((0 <=? d) && (d <=? 9))%Z then Ok (10 * n + d)%Z else Raise ValueError
    end) t (Ok 0%Z).
(** evalf(3) of an integer of at most four digits *)
Definition three_digits (z : Z) : Z := (if (z <? 1000) then z else (z + 5) / 10 * 10)%Z.
Definition integer_value (e : expression Z Z) : result Z := match e with Python z => Ok z | Sympy z => Ok (three_digits z) end.
Notation read_name s n := (snd (read_value Z (expression Z Z) (fun e _ => e) integer_value s n)).
Theorem C139_value_refuted : exists h s',
  let s := measure_run Z (expression Z Z) (read_expression Z Z digits) Python (fun z => z) (fun e _ => e) integer_value h in
  load_data Z (fun z => z) (fun _ => []) Z digits (fun z => z) (empty_set _ _) (saved_data Z Z Some ModelXml.int_str ModelXml.int_str s) = (s', Ok tt) /\
  read_name s (lit "height") = Ok 1234%Z /\ read_name s' (lit "height") = Ok 1230%Z.
Proof.
  exists [OpAdd _ (lit "height") (Number _ 1234%Z) [] []]. eexists. split; [vm_compute; reflexivity|]. split; vm_compute; reflexivity.
Qed.
Print Assumptions C139_save_refuted.
Print Assumptions C139_load_refuted.
Print Assumptions C139_round_partial.
Print Assumptions C139_value_refuted.
Definition some_history : list (measure_op Z) :=
  [OpAdd _ (lit "waist") (Number _ 70%Z) (lit "Waist") []; OpAdd _ (lit "bust arc") (Text _ (lit "90")) [] (lit "round"); OpAdd _ (lit "arm") (Text _ (lit "60")) [] []].
Notation some_set := (measure_run Z (expression Z Z) (read_expression Z Z digits) Python (fun z => z) (fun e _ => e) integer_value some_history).
Definition worth_Z (e : expression Z Z) : Z := match e with Python z => z | Sympy z => z end.
Example C139_example :
  Forall (fun m => legible digits (fun _ => None) ModelXml.int_str ModelXml.int_str worth_Z (m_expression _ _ m)) (iter _ _ some_set) /\
  saved_data Z Z (fun _ => None) ModelXml.int_str ModelXml.int_str some_set =
    YMap [(KText (lit "arm"), YList [YText (lit "60")]); (KText (lit "bust_arc"), YList [YText (lit "90"); YText []; YText (lit "round")]);
          (KText (lit "waist"), YList [YText (lit "70"); YText (lit "Waist"); YText []])].
Proof.
  split; [|vm_compute; reflexivity].
  assert (E : map (m_expression _ _) (iter _ _ some_set) = [Python 70%Z; Sympy 90%Z; Sympy 60%Z]) by (vm_compute; reflexivity).
  assert (F : Forall (legible digits (fun _ => None) ModelXml.int_str ModelXml.int_str worth_Z) (map (m_expression _ _) (iter _ _ some_set))).
  { rewrite E. repeat constructor; [exists 70%Z|exists 90%Z|exists 60%Z]; split; vm_compute; reflexivity. }
  rewrite Forall_map in F. exact F.
Qed.

(** ** C140: the table of standard measurements *)
(** A table is accepted exactly when each entry has four fields and no name is there twice; it holds the entries in order. *)
Theorem C140_accepted data t : new_table data = Ok t <->
  exists l ks, describes data l /\ Forall2 (fun m k => to_key (sd_name m) = Some k) l ks /\ NoDup ks /\ t = combine ks l.
Proof. exact (new_table_ok data t). Qed.
(** Each one is found under its name, and nothing else is found. *)
Theorem C140_found data t : new_table data = Ok t ->
  exists l, describes data l /\ table_iter t = l /\ table_len t = length l /\
    (forall m, In m l -> exists k, to_key (sd_name m) = Some k /\ table_get t k = Ok m /\ table_contains t k = true) /\
    (forall k m, table_get t k = Ok m -> In m l /\ to_key (sd_name m) = Some k) /\
    (forall k, table_contains t k = false -> table_get t k = Raise KeyError).
Proof. exact (table_facts data t). Qed.
(** The file which comes with the program: 244 measurements; the names and the codes are distinct, the names can be used in formulas. *)
Fixpoint distinct (l : list ykey) : bool := match l with [] => true | k :: l => negb (existsb (key_eqb k) l) && distinct l end.
Definition formula_name (v : yvalue) : bool :=
  match v with
  | YText (c :: t) => negb (existsb (Ascii.eqb c) (lit "0123456789")) && forallb is_word (c :: t)
  | _ => false
  end.
Definition file_checked : bool :=
  match new_table standard_file with
  | Ok t => (table_len t =? 244) && distinct (map sd_code (table_iter t)) && forallb (fun m => formula_name (sd_name m)) (table_iter t)
  | Raise _ => false
  end.
Theorem C140_shipped : exists t, new_table standard_file = Ok t /\ table_len t = 244 /\
  NoDup (map sd_code (table_iter t)) /\ Forall (fun m => exists n, sd_name m = YText n /\ identifier n) (table_iter t).
Proof.
  assert (C : file_checked = true) by (vm_compute; reflexivity). unfold file_checked in C.
  destruct (new_table standard_file) as [t|e]; [|discriminate]. exists t. apply andb_true_iff in C as (C & F). apply andb_true_iff in C as (L & D).
  split; [reflexivity|]. split; [apply Nat.eqb_eq, L|]. split.
  - clear - D. induction (map sd_code (table_iter t)) as [|k l IH]; cbn in D; [constructor|]. apply andb_true_iff in D as (N & D). constructor; [|exact (IH D)].
    intro I. apply negb_true_iff in N. assert (X : existsb (key_eqb k) l = true); [|congruence]. apply existsb_exists. exists k. split; [exact I|].
    destruct (key_eqb_spec k k); [reflexivity|contradiction].
  - rewrite forallb_forall in F. apply Forall_forall. intros m M. specialize (F m M). unfold formula_name in F.
    destruct (sd_name m) as [|x|[|c t']|x|x]; try discriminate. exists (c :: t'). split; [reflexivity|]. apply andb_true_iff in F as (N & W). split.
    + intro R. apply negb_true_iff in N. assert (X : existsb (Ascii.eqb c) (lit "0123456789") = true); [|congruence]. clear - R.
      assert (Q : forall n, 48 <= n <= 57 -> existsb (Ascii.eqb (ascii_of_nat n)) (lit "0123456789") = true).
      { intros n R'. assert (n = 48 \/ n = 49 \/ n = 50 \/ n = 51 \/ n = 52 \/ n = 53 \/ n = 54 \/ n = 55 \/ n = 56 \/ n = 57) as D by lia.
        repeat (destruct D as [-> | D]; [reflexivity|]). subst n. reflexivity. }
      specialize (Q _ R). rewrite ascii_nat_embedding in Q. exact Q.
    + unfold word_text. rewrite forallb_forall in W. apply Forall_forall. exact W.
Qed.
Print Assumptions C140_accepted.
Print Assumptions C140_found.
Print Assumptions C140_shipped.
Definition row (code name : string) : ykey * yvalue := (k code, YList [y name; y "full"; y "text"; YNum 0%Z]).
Example C140_example : exists t, new_table (YMap [(k "A", YMap [(k "measurements", YMap [row "A01" "height"; row "A02" "neck"])]); (k "B", YMap [(k "measurements", YMap [row "B01" "width"])])]) = Ok t /\
  map sd_code (table_iter t) = [k "A01"; k "A02"; k "B01"] /\ is_ok (table_get t (k "neck")).
Proof. eexists. split; [vm_compute; reflexivity|]. split; [reflexivity|]. eexists. vm_compute. reflexivity. Qed.
Example C140_twice : new_table (YMap [(k "A", YMap [(k "measurements", YMap [row "A01" "height"])]); (k "B", YMap [(k "measurements", YMap [row "B01" "height"])])]) = Raise NameError.
Proof. vm_compute. reflexivity. Qed.

(** ** C141: the database of fibres *)
(** A file with its three sections: the fibres are added in order, the first of each name is kept and found; loading again changes nothing. *)
Theorem C141_loaded_partial other_str db data plants animals others : made db ->
  natural_fibres data "Plant Fibers" plants -> natural_fibres data "Animal Fibers" animals -> synthetic_fibres data others ->
  exists db', load_fibers other_str db data = (db', Ok tt) /\ made db' /\
    db_iter db' = db_iter db ++ firsts (map fb_name (db_iter db))
      (map (fun p => Fiber (fst p) Natural (lit "FiberType.Plant") (snd p)) plants ++
       map (fun p => Fiber (fst p) Natural (lit "FiberType.Animal") (snd p)) animals ++
       map (fun n => Fiber n Synthetic (lit "None") (lit "None")) others) /\
    (forall f, In f (db_iter db') -> db_get db' (fb_name f) = Ok f) /\
    (forall n f, db_get db' n = Ok f -> In f (db_iter db') /\ fb_name f = n) /\
    load_fibers other_str db' data = (db', Ok tt).
Proof. exact (fibres_ok other_str db data plants animals others). Qed.
(** The file which comes with the program is refused: it writes Fibres. *)
Theorem C141_shipped_refuted other_str db : load_fibers other_str db fiber_file = (db, Raise KeyError).
Proof. reflexivity. Qed.
(** When the last section is missing the call fails, but the fibres of the first ones were added. *)
Theorem C141_atomic_refuted other_str db data plants animals :
  natural_fibres data "Plant Fibers" plants -> natural_fibres data "Animal Fibers" animals -> item data "Synthetic Fibers" = Raise KeyError ->
  load_fibers other_str db data = (fold_left db_add
    (map (fun p => Fiber (fst p) Natural (lit "FiberType.Plant") (snd p)) plants ++
     map (fun p => Fiber (fst p) Natural (lit "FiberType.Animal") (snd p)) animals) db, Raise KeyError).
Proof. exact (fibres_left other_str db data plants animals). Qed.
Definition small_file (synthetic : list (ykey * yvalue)) : yvalue :=
  YMap [(k "Natural Fibers", YMap [(k "Plant Fibers", YMap [(k "Cotton", YMap [(k "source", y "cotton")]); (k "Linen", YMap [(k "source", y "flax")])]);
                                   (k "Animal Fibers", YMap [(k "Silk", YMap [(k "source", y "silkworm")])])]);
        (k "Synthetic Fibers", YMap synthetic)].
(** The source of a synthetic fibre is lost. *)
(** A section which is missing, or no dictionary, stops the call; what was read before stays. *)
Theorem C141_missing other_str db data natural e : item data "Natural Fibers" = Ok natural ->
  (section_items natural "Plant Fibers" = Raise e -> load_fibers other_str db data = (db, Raise e)) /\
  (forall plants, natural_fibres data "Plant Fibers" plants -> section_items natural "Animal Fibers" = Raise e ->
     load_fibers other_str db data = (fold_left db_add (map (fun p => Fiber (fst p) Natural (lit "FiberType.Plant") (snd p)) plants) db, Raise e)).
Proof. exact (missing_section other_str db data natural e). Qed.
Print Assumptions C141_missing.
Theorem C141_source_refuted other_str : exists f, load_fibers other_str [] (small_file [(k "Dyneema", YMap [(k "source", y "polyethylene")])]) = f /\
  snd f = Ok tt /\ exists d, db_get (fst f) (lit "Dyneema") = Ok d /\ fb_source d = lit "None".
Proof. eexists. split; [reflexivity|]. split; [reflexivity|]. eexists. split; reflexivity. Qed.
Print Assumptions C141_loaded_partial.
Print Assumptions C141_shipped_refuted.
Print Assumptions C141_atomic_refuted.
Print Assumptions C141_source_refuted.
Example C141_example : natural_fibres (small_file [(k "Nylon", YNull)]) "Plant Fibers" [(lit "Cotton", lit "cotton"); (lit "Linen", lit "flax")] /\
  natural_fibres (small_file [(k "Nylon", YNull)]) "Animal Fibers" [(lit "Silk", lit "silkworm")] /\ synthetic_fibres (small_file [(k "Nylon", YNull)]) [lit "Nylon"].
Proof.
  split; [|split].
  - eexists. split; [reflexivity|]. eexists. split; [reflexivity|]. repeat constructor.
  - eexists. split; [reflexivity|]. eexists. split; [reflexivity|]. repeat constructor.
  - eexists. split; reflexivity.
Qed.

(** ** C142: the database of stitches *)
(** Whatever the file, no stitch is ever added. *)
Theorem C142_loaded_refuted db data : fst (load_stitches db data) = db.
Proof. reflexivity. Qed.
(** The file which comes with the program is refused: it writes Introduction and Classes (stitch.yaml 20-24). *)
Theorem C142_shipped_refuted db introduction classes :
  load_stitches db (YMap [(k "Introduction", introduction); (k "Classes", classes)]) = (db, Raise KeyError).
Proof. reflexivity. Qed.
(** A file without classes is refused. *)
Theorem C142_missing db data introduction e : item data "introduction" = Ok introduction -> item data "classes" = Raise e -> load_stitches db data = (db, Raise e).
Proof. intros I C. unfold load_stitches. rewrite I, C. reflexivity. Qed.
Print Assumptions C142_missing.
(** A stitch of which a number is not known cannot be made. *)
Theorem C142_unknown_refuted other_str to_int number name needles threads : to_int YNull = Raise TypeError ->
  exists e, new_stitch other_str to_int number name needles threads YNull = Raise e.
Proof.
  intro H. unfold new_stitch. destruct (to_int number); cbn [bind]; [|eauto]. destruct (to_int needles); cbn [bind]; [|eauto].
  destruct (to_int threads); cbn [bind]; [|eauto]. rewrite H. cbn. eauto.
Qed.
Print Assumptions C142_loaded_refuted.
Print Assumptions C142_shipped_refuted.
Print Assumptions C142_unknown_refuted.
Example C142_example : snd (load_stitches [] (YMap [(k "introduction", y "text"); (k "classes", YMap [(k "100", YMap [(k "name", y "chain"); (k "description", y "text");
  (k "stitches", YMap [(KInt 101, YMap [(k "name", y "Single")]); (KInt 105, YNull)])])])])) = Ok tt.
Proof. reflexivity. Qed.

(** ** C143: fabrics, seams and machines *)
(** A fabric can never be made, whatever is given. *)
Theorem C143_fabric_refuted to_float k : exists e, new_fabric to_float k = Raise e.
Proof. exact (fabric_never to_float k). Qed.
(** A seam never tells its name. *)
Theorem C143_seam_refuted class type rows : seam_name class type rows = Raise KeyError.
Proof. reflexivity. Qed.
(** A machine is made only when sitche_types, with this spelling, is given, with all the numbers. *)
Theorem C143_machine_partial other_str to_int to_float k m : new_machine other_str to_int to_float k = Ok m ->
  (exists v l, lookup k (lit "sitche_types") = Some v /\ elements Z (fun z => z) v = Ok l /\ sw_stitches m = l) /\
  to_int (or_none k "number_of_needles") = Ok (sw_needles m) /\ to_int (or_none k "number_of_loopers") = Ok (sw_loopers m) /\
  is_ok (to_float (or_none k "max_sewing_speed")) /\ is_ok (to_float (or_none k "needle_gauge")) /\ is_ok (to_float (or_none k "overedging_width")).
Proof. exact (machine_needs other_str to_int to_float k m). Qed.
(** The stitch types, with the right spelling, are not looked at. *)
Theorem C143_spelling_refuted other_str to_int to_float k : lookup k (lit "sitche_types") = None -> new_machine other_str to_int to_float k = Raise TypeError.
Proof. intro H. unfold new_machine, or_none at 1. rewrite H. reflexivity. Qed.
Print Assumptions C143_fabric_refuted.
Print Assumptions C143_seam_refuted.
Print Assumptions C143_machine_partial.
Print Assumptions C143_spelling_refuted.
Definition plain_int (v : yvalue) : result Z := match v with YNum z => Ok z | _ => Raise TypeError end.
Definition plain_float (v : yvalue) : result unit := match v with YNum z => Ok tt | _ => Raise TypeError end.
Definition full_fabric : kwargs :=
  [(lit "bending", YList [YNum 1; YNum 2]); (lit "stretch", YList [YNum 1; YNum 2]); (lit "shear", YNum 1); (lit "friction", YNum 1); (lit "weight", YNum 1);
   (lit "shrinkage", YList [YNum 1; YNum 2]); (lit "pressure", YNum 1)]%Z.
Example C143_fabric : new_fabric plain_float full_fabric = Raise TypeError.
Proof. reflexivity. Qed.
Example C143_machine : is_ok (new_machine (fun _ => []) plain_int plain_float
  [(lit "sitche_types", YList [YNum 301]); (lit "number_of_needles", YNum 1); (lit "number_of_loopers", YNum 0); (lit "max_sewing_speed", YNum 5000);
   (lit "needle_gauge", YNum 6); (lit "overedging_width", YNum 5)]%Z).
Proof. eexists. reflexivity. Qed.
