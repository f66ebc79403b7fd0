(** What the YAML files should do. *)
From Coq Require Import String Ascii List Bool Arith ZArith.
From Verif Require Import Base ModelFormula ModelMeasure ModelYaml.
Import ListNotations.

(** The order of the dictionary *)
Inductive before : text -> text -> Prop :=
| bf_nil t : before [] t
| bf_less x y s t : nat_of_ascii x < nat_of_ascii y -> before (x :: s) (y :: t)
| bf_same x s t : before s t -> before (x :: s) (x :: t).
Inductive ascending : list text -> Prop :=
| as_nil : ascending []
| as_cons t l : Forall (before t) l -> ascending l -> ascending (t :: l).

Section Worth.
Context {number sympy W : Type}.
Variable sympify : text -> result sympy.
Variable as_number : sympy -> option number.
Variable sympy_str : sympy -> text.
Variable number_str : number -> text.
Variable worth : expression number sympy -> W.
(** What is written of an expression is read as an expression of the same worth *)
Definition legible (e : expression number sympy) : Prop :=
  match e with
  | Python x => exists e', sympify (number_str x) = Ok e' /\ worth (Sympy e') = worth e
  | Sympy s =>
      match as_number s with
      | Some x => worth (Python x) = worth e
      | None => exists e', sympify (sympy_str s) = Ok e' /\ worth (Sympy e') = worth e
      end
  end.
(** The same measurement, but for the way to write its expression *)
Definition same_measurement (m m' : measurement number (expression number sympy)) : Prop :=
  m_name _ _ m' = m_name _ _ m /\ m_full_name _ _ m' = m_full_name _ _ m /\ m_description _ _ m' = m_description _ _ m /\
  worth (m_expression _ _ m') = worth (m_expression _ _ m).
End Worth.

(** The measurements which a table describes, in order *)
Definition describes (data : yvalue) (l : list standard) : Prop :=
  exists topics, data = YMap topics /\
  exists parts, l = concat parts /\
  Forall2 (fun topic part => exists entries, item (snd topic) "measurements" = Ok (YMap entries) /\
    Forall2 (fun entry m => fst entry = sd_code m /\ elements Z (fun z => z) (snd entry) = Ok [sd_name m; sd_full_name m; sd_description m; sd_default m]) entries part)
    topics parts.

(** The fibres of a file: those of the plants, of the animals and the others *)
Definition entry_text (k : ykey) (t : text) : Prop := k = KText t.
Definition natural_fibres (data : yvalue) (origin : string) (l : list (text * text)) : Prop :=
  exists natural, item data "Natural Fibers" = Ok natural /\
  exists entries, item natural origin = Ok (YMap entries) /\
  Forall2 (fun entry p => fst entry = KText (fst p) /\ item (snd entry) "source" = Ok (YText (snd p))) entries l.
Definition synthetic_fibres (data : yvalue) (l : list text) : Prop :=
  exists entries, item data "Synthetic Fibers" = Ok (YMap entries) /\ map fst entries = map KText l.
(** The first of each name, in order, after those of the names which are already taken *)
Fixpoint firsts (taken : list text) (l : list fiber) : list fiber :=
  match l with
  | [] => []
  | f :: l => if in_dec (list_eq_dec ascii_dec) (fb_name f) taken then firsts taken l else f :: firsts (fb_name f :: taken) l
  end.
