(** Model of Patro/Common/Datetime.py and of Patro/Measurement/PersonalData.py.  The texts are Latin-1. *)
From Coq Require Import String Ascii List Bool Arith ZArith.
From Verif Require Import Base ModelFormula ModelMeasure.
From Verif Require ModelXml.
Import ModelXml(int_str).
Import ListNotations.
Local Open Scope result_scope.

(** ** The expressions of the module _strptime of Python: a sequence of parts, each with its alternatives, tried in order
    with backtracking; an alternative is a sequence of sets of characters *)
Definition range (a b : string) (c : ascii) : bool :=
  match a, b with
  | String x _, String y _ => (nat_of_ascii x <=? nat_of_ascii c) && (nat_of_ascii c <=? nat_of_ascii y)
  | _, _ => false
  end.
Definition any_digit : ascii -> bool := range "0" "9".
Definition one (a : string) : ascii -> bool := range a a.
Definition part := list (list (ascii -> bool)).
Fixpoint prefix (a : list (ascii -> bool)) (s : text) : option (text * text) :=
  match a, s with
  | [], _ => Some ([], s)
  | p :: a, c :: s => if p c then match prefix a s with Some (m, r) => Some (c :: m, r) | None => None end else None
  | _ :: _, [] => None
  end.
(** The texts of the parts, and what remains *)
Fixpoint search (l : list part) (s : text) : option (list text * text) :=
  match l with
  | [] => Some ([], s)
  | p :: l =>
      (fix alternatives (p : part) : option (list text * text) :=
         match p with
         | [] => None
         | a :: p =>
             match prefix a s with
             | Some (m, r) => match search l r with Some (ms, r) => Some (m :: ms, r) | None => alternatives p end
             | None => alternatives p
             end
         end) p
  end.
Definition year : part := [[any_digit; any_digit; any_digit; any_digit]].
Definition month : part := [[one "1"; range "0" "2"]; [one "0"; range "1" "9"]; [range "1" "9"]].
Definition day : part :=
  [[one "3"; range "0" "1"]; [range "1" "2"; any_digit]; [one "0"; range "1" "9"]; [range "1" "9"]; [one " "; range "1" "9"]].
Definition hour : part := [[one "2"; range "0" "3"]; [range "0" "1"; any_digit]; [any_digit]].
Definition minute : part := [[range "0" "5"; any_digit]; [any_digit]].
Definition second : part := [[one "6"; range "0" "1"]; [range "0" "5"; any_digit]; [any_digit]].
Definition fraction : part := map (fun n => repeat any_digit n) [6; 5; 4; 3; 2; 1].
(** A character of the format; the case does not matter *)
Definition mark (upper lower : string) : part := [[fun c => one upper c || one lower c]].
Definition date_format : list part := [year; mark "-" "-"; month; mark "-" "-"; day].
Definition datetime_format : list part :=
  [year; mark "-" "-"; month; mark "-" "-"; day; mark "T" "t"; hour; mark ":" ":"; minute; mark ":" ":"; second; mark "." "."; fraction; mark "Z" "z"].

(** int() of digits, after an optional space *)
Definition number (s : text) : Z := fold_left (fun n c => if Ascii.eqb c " " then n else (10 * n + (Z.of_nat (nat_of_ascii c) - 48))%Z) s 0%Z.
Definition leap (y : Z) : bool := ((y mod 4 =? 0) && negb (y mod 100 =? 0) || (y mod 400 =? 0))%Z.
Definition days (y m : Z) : Z := if (m =? 2)%Z then (if leap y then 29 else 28)%Z else if existsb (Z.eqb m) [4; 6; 9; 11]%Z then 30%Z else 31%Z.
Record date := Date { d_year : Z; d_month : Z; d_day : Z }.
Record datetime := Datetime { t_date : date; t_hour : Z; t_minute : Z; t_second : Z; t_micro : Z }.
(** datetime.date *)
Definition new_date (y m d : Z) : result date :=
  if ((1 <=? y) && (y <=? 9999) && (1 <=? m) && (m <=? 12) && (1 <=? d) && (d <=? days y m))%Z then Ok (Date y m d) else Raise ValueError.
Definition strptime_date (s : text) : result date :=
  match search date_format s with
  | Some ([y; _; m; _; d], []) => new_date (number y) (number m) (number d)
  | _ => Raise ValueError
  end.
Definition strptime_datetime (s : text) : result datetime :=
  match search datetime_format s with
  | Some ([y; _; m; _; d; _; hh; _; mm; _; ss; _; f; _], []) =>
      d <- new_date (number y) (number m) (number d) ;;
      if (number ss <? 60)%Z then Ok (Datetime d (number hh) (number mm) (number ss) (number (f ++ repeat "0"%char (6 - length f)))) else Raise ValueError
  | _ => Raise ValueError
  end.

(** ** The values given by a caller *)
Inductive gender := UNKNOWN | FEMALE | MALE | PARTICULAR.
Inductive given := GNone | GText (t : text) | GInt (z : Z) | GDate (d : date) | GDatetime (d : datetime) | GGender (g : gender).
Fixpoint padded (w : nat) (z : Z) : text :=
  match w with 0 => [] | S w => padded w (z / 10) ++ [ascii_of_nat (48 + Z.to_nat (z mod 10))] end.
(** date.isoformat and datetime.__str__ *)
Definition date_str (d : date) : text := padded 4 (d_year d) ++ lit "-" ++ padded 2 (d_month d) ++ lit "-" ++ padded 2 (d_day d).
Definition datetime_str (t : datetime) : text :=
  date_str (t_date t) ++ lit " " ++ padded 2 (t_hour t) ++ lit ":" ++ padded 2 (t_minute t) ++ lit ":" ++ padded 2 (t_second t) ++
  (if (t_micro t =? 0)%Z then [] else lit "." ++ padded 6 (t_micro t)).
Definition gender_names : list (text * gender) :=
  [(lit "UNKNOWN", UNKNOWN); (lit "FEMALE", FEMALE); (lit "MALE", MALE); (lit "PARTICULAR", PARTICULAR)].
Definition gender_str (g : gender) : text :=
  lit "Gender." ++ lit (match g with UNKNOWN => "UNKNOWN" | FEMALE => "FEMALE" | MALE => "MALE" | PARTICULAR => "PARTICULAR" end).
Definition str (v : given) : text :=
  match v with
  | GNone => lit "None" | GText t => t | GInt z => int_str z | GDate d => date_str d | GDatetime d => datetime_str d | GGender g => gender_str g
  end.

(** Datetime.py 29-34: ensure_date; a datetime is a date *)
Definition ensure_date (v : given) : result given :=
  match v with
  | GDate _ | GDatetime _ => Ok v
  | _ => d <- strptime_date (str v) ;; Ok (GDate d)
  end.
(** 38-43: ensure_datetime *)
Definition ensure_datetime (v : given) : result given :=
  match v with
  | GDatetime _ => Ok v
  | _ => d <- strptime_datetime (str v) ;; Ok (GDatetime d)
  end.

(** str.upper: the characters which are not ASCII never become letters of the names of the genders: they are kept *)
Definition upper_char (c : ascii) : ascii :=
  let n := nat_of_ascii c in if (97 <=? n) && (n <=? 122) then ascii_of_nat (n - 32) else c.
Definition upper (s : text) : text := map upper_char s.

(** ** PersonalData.py *)
Record personal := Personal {
  first_name : text; last_name : text; birth_date : given; measurement_date : given; p_gender : gender; email : text; comment : text }.
(** 92-97, 105-110: the setters of the dates; the other setters, 72-74, 82-84, 132-134, 142-144, are [str] *)
Definition set_birth_date (v : given) : result given := match v with GNone => Ok GNone | _ => ensure_date v end.
Definition set_measurement_date (v : given) : result given := match v with GNone => Ok GNone | _ => ensure_datetime v end.
(** 30-35: the enumeration; 118-124: the setter of the gender *)
Definition set_gender (v : given) : result gender :=
  match v with
  | GText t => match lookup gender_names (upper t) with Some g => Ok g | None => Raise KeyError end
  | GGender g => Ok g
  | GInt 1 => Ok UNKNOWN | GInt 2 => Ok FEMALE | GInt 3 => Ok MALE | GInt 4 => Ok PARTICULAR
  | _ => Raise ValueError
  end.
(** 45-64: __init__; the other keywords are not read *)
Definition get (kwargs : list (text * given)) (key : string) (default : given) : given :=
  match lookup kwargs (lit key) with Some v => v | None => default end.
Definition new_personal (kwargs : list (text * given)) : result personal :=
  let f := str (get kwargs "first_name" (GText [])) in
  let l := str (get kwargs "last_name" (GText [])) in
  b <- set_birth_date (get kwargs "birth_date" GNone) ;;
  m <- set_measurement_date (get kwargs "measurement_date" GNone) ;;
  g <- set_gender (get kwargs "gender" (GGender UNKNOWN)) ;;
  let e := str (get kwargs "email" (GText [])) in
  let c := str (get kwargs "comment" (GText [])) in
  Ok (Personal f l b m g e c).
