(** Valentina measurements and their files: Measurement/ValentinaMeasurement.py, FileFormat/Valentina/Measurement.py. *)
From Coq Require Import String Ascii List Bool Arith ZArith Lia.
From Verif Require Import Base ModelFormula ModelMeasure ModelDate ModelVit SpecMeasure SpecDate SpecVit ProofMeasure ProofDate2 ProofDate3 ProofVit ProofVit2.
From Verif Require ModelValFile.
Import ModelValFile(xml, Node, Comment, children).
Import ListNotations.
Local Open Scope result_scope.

Section Properties.
Context {number expression : Type}.
Variable sympify : text -> result expression.
Variable of_number : number -> expression.
Variable float : number -> number.
Variable subs : expression -> list (text * expression) -> expression.
Variable evalf : expression -> result number.
Notation add_entries := (add_entries number expression sympify of_number float).
Notation empty := (empty_vset number expression).
Notation v_value := (v_value number expression subs evalf).
Notation read_vit := (read_vit number expression sympify of_number float).

(** C133.  The entries are accepted exactly when their names, once @ is written C_, are made of permitted characters and
    distinct, and their translated formulas are understood; the set is then made of them. *)
Theorem C133_accepted : forall es, is_ok (add_entries empty es) <->
  Forall (fun e => Forall permitted (spelled (e_name e))) es /\ NoDup (map (fun e => spelled (e_name e)) es) /\ Forall (fun e => is_ok (sympify (translated (e_value e)))) es.
Proof.
  intros es. split.
  - intros [s H]. pose proof (entries_made number expression sympify of_number float es s H) as M. split; [exact (mo_names _ _ _ _ _ M)|]. split; [exact (mo_distinct _ _ _ _ _ M)|].
    exact (entries_good number expression sympify of_number float es s H).
  - intros (P & D & S). exact (entries_exists number expression sympify of_number float es P D S).
Qed.
Theorem C133_set : forall es s, add_entries empty es = Ok s -> made_of number expression sympify es s.
Proof. exact (entries_made number expression sympify of_number float). Qed.
(** A measurement is found by its translated name and, for a custom one, by its own name: it is the same object. *)
Theorem C133_found : forall es s n i, add_entries empty es = Ok s -> v_get _ _ s n = Ok i <-> called es i n.
Proof. exact (get_called number expression sympify of_number float). Qed.
(** Its value is the one of its formula, whatever was read before. *)
Theorem C133_value : forall es s n i reads, add_entries empty es = Ok s -> v_get _ _ s n = Ok i ->
  exists m, nth_error (v_objects _ _ s) i = Some m /\
  snd (v_value (fold_left (fun s j => fst (v_value s j)) reads s) i) = evalf (subs (m_expression _ _ m) (v_expressions _ _ s)).
Proof.
  intros es s n i reads H G. pose proof (proj1 (get_called number expression sympify of_number float es s n i H) G) as (e & E & _).
  pose proof (mo_objects _ _ _ _ _ (entries_made number expression sympify of_number float es s H)) as O.
  destruct (nth_error (v_objects _ _ s) i) as [m|] eqn:M.
  - exists m. split; [reflexivity|]. rewrite value_reads. exact (value_fresh number expression sympify of_number float subs evalf es s i m H M).
  - exfalso. apply nth_error_None in M. rewrite <- (Forall2_length _ _ _ O) in M. apply nth_error_None in M. congruence.
Qed.
(** The formulas are translated like the names: a custom name of a formula becomes the registered one. *)
Theorem C133_formula : forall before n after, ~ In " "%char n -> translated (before ++ n ++ after) = translated before ++ spelled n ++ translated after.
Proof.
  intros before n after N. rewrite !translated_app. do 2 f_equal. unfold spelled, scored. symmetry. rewrite <- (map_id (translated n)) at 2. apply map_ext_in. intros c C.
  destruct (Ascii.eqb_spec c " ") as [->|]; [|reflexivity]. exfalso. apply N. unfold translated in C. apply in_flat_map in C. destruct C as (x & I & J).
  destruct (Ascii.eqb x "@"); [destruct J as [J|[J|[]]]; discriminate J|]. destruct J as [->|[]]. exact I.
Qed.

(** C134.  A file is read exactly when it has its parts, and what is read is what it says. *)
Theorem C134_file : forall root r, read_vit root = Ok r <-> file_of number expression sympify of_number float root r.
Proof. exact (read_iff number expression sympify of_number float). Qed.
(** The format shown in the comment of the module has no element customer: it is refused. *)
Theorem C134_format_refuted : forall root p, first root "personal" p -> (forall a b l, ~ In (Node (lit "customer") a b l) (children p)) -> ~ is_ok (read_vit root).
Proof.
  intros root p F L [r H]. apply read_iff in H. destruct (fo_personal _ _ _ _ _ _ _ H) as (p' & F' & (e & ((a & b & l & ->) & before & after & E & _) & _) & _).
  apply first_iff in F, F'. rewrite F in F'. injection F' as <-. apply (L a b l). rewrite E. apply in_or_app. right. now left.
Qed.
(** A comment among the measurements stops the reading. *)
Theorem C134_comment_refuted : forall root b c, first root "body-measurements" b -> In (Comment c) (children b) -> ~ is_ok (read_vit root).
Proof.
  intros root b c F I [r H]. apply read_iff in H. destruct (fo_measurements _ _ _ _ _ _ _ H) as (b' & es & F' & G & _). apply first_iff in F, F'. rewrite F in F'. injection F' as <-.
  clear - G I. induction G as [|x e l es (a & b' & l' & -> & _) G IH]; [destruct I|]. destruct I as [E|I]; [discriminate E|exact (IH I)].
Qed.
End Properties.
Print Assumptions C133_accepted.
Print Assumptions C133_set.
Print Assumptions C133_found.
Print Assumptions C133_value.
Print Assumptions C133_formula.
Print Assumptions C134_file.
Print Assumptions C134_format_refuted.
Print Assumptions C134_comment_refuted.

(** ** Examples: the expressions are the texts, none being refused *)
Local Open Scope string_scope.
Notation t_entries := (add_entries nat text (fun t => Ok t) (fun _ => []) (fun x => x)).
Notation t_read := (read_vit nat text (fun t => Ok t) (fun _ => []) (fun x => x)).
Definition girth := Entry (lit "@girth") (lit "40") [] [].
Definition half := Entry (lit "half") (lit "@girth / 2") (lit "Half") [].
Definition two_set : vset nat text := match t_entries (empty_vset _ _) [girth; half] with Ok s => s | Raise _ => empty_vset _ _ end.
Example C133_example : t_entries (empty_vset _ _) [girth; half] = Ok two_set /\
  v_get _ _ two_set (lit "@girth") = Ok 0 /\ v_get _ _ two_set (lit "C_girth") = Ok 0 /\ v_get _ _ two_set (lit "half") = Ok 1 /\
  v_expressions _ _ two_set = [(lit "C_girth", lit "40"); (lit "half", lit "C_girth / 2")].
Proof. vm_compute. repeat split. Qed.
(** Two names which differ may be refused. *)
Theorem C133_clash_refuted : ~ forall es : list entry, Forall (fun e => Forall permitted (spelled (e_name e))) es -> NoDup (map e_name es) -> is_ok (t_entries (empty_vset _ _) es).
Proof.
  intros H. destruct (H [girth; Entry (lit "C_girth") (lit "1") [] []]) as [s E]; [|..|vm_compute in E; discriminate E].
  - repeat constructor; vm_compute; tauto.
  - constructor; [intros [E|[]]; discriminate E|]. constructor; [intros []|constructor].
Qed.
Print Assumptions C133_clash_refuted.
(** A measurement is not always found by the name which was given. *)
Theorem C133_own_name_refuted : ~ forall es s e, t_entries (empty_vset _ _) es = Ok s -> In e es -> is_ok (v_get _ _ s (e_name e)).
Proof.
  intros H. destruct (H [Entry (lit "a@b") (lit "1") [] []] _ (Entry (lit "a@b") (lit "1") [] []) eq_refl) as [i E]; [now left|]. vm_compute in E. discriminate E.
Qed.
Print Assumptions C133_own_name_refuted.
(** The custom measurements are there twice in an iteration. *)
Theorem C133_iteration_refuted : ~ forall es s, t_entries (empty_vset _ _) es = Ok s -> NoDup (v_iter _ _ s).
Proof.
  intros H. specialize (H [girth] _ eq_refl). vm_compute in H. inversion H as [|? ? N _]; subst. apply N. now left.
Qed.
Print Assumptions C133_iteration_refuted.

Definition t_node t l := Node (lit t) [] None l.
Definition t_text t s := Node (lit t) [] (Some (lit s)) [].
Definition t_m n v := Node (lit "m") [(lit "value", lit v); (lit "name", lit n)] None [].
Definition a_file customer := t_node "vit" [Comment (lit "Measurements"); t_text "version" "0.3.3"; t_node "notes" []; t_text "unit" "cm"; t_text "pm_system" "998";
  t_node "personal" (customer ++ [t_text "birth-date" "1800-01-01"; t_text "gender" "female"; t_node "email" []]);
  t_node "body-measurements" [t_m "@girth" "40"; t_m "half" "@girth / 2"]].
Example C134_example :
  (exists r, t_read (a_file [t_text "customer" "Ada"]) = Ok r /\ vit_unit _ _ r = Some (lit "cm") /\ vit_customer _ _ r = Some (lit "Ada") /\
    birth_date (vit_personal _ _ r) = GDate (Date 1800 1 1) /\ p_gender (vit_personal _ _ r) = FEMALE /\ email (vit_personal _ _ r) = lit "None" /\ length (v_objects _ _ (vit_set _ _ r)) = 2) /\
  t_read (a_file [t_text "family-name" "Lovelace"; t_text "given-name" "Ada"]) = Raise AttributeError.
Proof. split; [eexists; split; [vm_compute; reflexivity|vm_compute; repeat split]|vm_compute; reflexivity]. Qed.
(** The measurements do not get the unit of the file. *)
Theorem C134_unit_refuted : ~ forall root r, t_read root = Ok r -> set_unit _ _ r = vit_unit _ _ r.
Proof. intros H. specialize (H (a_file [t_text "customer" "Ada"]) _ eq_refl). vm_compute in H. discriminate H. Qed.
Print Assumptions C134_unit_refuted.
