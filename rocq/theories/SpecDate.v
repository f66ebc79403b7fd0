(** What the text of a date denotes, and what the data of a person are. *)
From Coq Require Import String Ascii List Bool Arith ZArith.
From Verif Require Import Base ModelFormula ModelMeasure ModelDate.
Import ListNotations.

(** The number written by decimal digits *)
Inductive numeral : text -> Z -> Prop :=
| num_one d : d < 10 -> numeral [ascii_of_nat (48 + d)] (Z.of_nat d)
| num_more t z d : numeral t z -> d < 10 -> numeral (t ++ [ascii_of_nat (48 + d)]) (10 * z + Z.of_nat d)%Z.
(** One or two digits *)
Definition short (t : text) (z : Z) : Prop := numeral t z /\ length t <= 2.

(** The dates of the Gregorian calendar, of the years of four digits *)
Definition leap_year (y : Z) : Prop := (4 | y)%Z /\ (~ (100 | y) \/ (400 | y))%Z.
Definition lasts (y m d : Z) : Prop :=
  (m = 2 /\ (leap_year y /\ d = 29 \/ ~ leap_year y /\ d = 28) \/
   (m = 4 \/ m = 6 \/ m = 9 \/ m = 11) /\ d = 30 \/
   (m = 1 \/ m = 3 \/ m = 5 \/ m = 7 \/ m = 8 \/ m = 10 \/ m = 12) /\ d = 31)%Z.
Definition calendar (d : date) : Prop :=
  (1 <= d_year d <= 9999)%Z /\ exists last, lasts (d_year d) (d_month d) last /\ (1 <= d_day d <= last)%Z.
Definition clock (t : datetime) : Prop :=
  calendar (t_date t) /\ (0 <= t_hour t < 24)%Z /\ (0 <= t_minute t < 60)%Z /\ (0 <= t_second t < 60)%Z /\ (0 <= t_micro t < 1000000)%Z.

(** Year, month, day; the tens of the day may be a space *)
Definition writes_date (t : text) (d : date) : Prop :=
  exists ty tm td,
    t = ty ++ lit "-" ++ tm ++ lit "-" ++ td /\ numeral ty (d_year d) /\ length ty = 4 /\ short tm (d_month d) /\
    (short td (d_day d) \/ exists td', td = lit " " ++ td' /\ length td' = 1 /\ numeral td' (d_day d)).
Definition writes_datetime (t : text) (d : datetime) : Prop :=
  exists day sep th tm ts tf z f,
    t = day ++ [sep] ++ th ++ lit ":" ++ tm ++ lit ":" ++ ts ++ lit "." ++ tf ++ [z] /\
    writes_date day (t_date d) /\ (sep = "T" \/ sep = "t")%char /\ short th (t_hour d) /\ short tm (t_minute d) /\ short ts (t_second d) /\
    numeral tf f /\ length tf <= 6 /\ (t_micro d = f * 10 ^ (6 - Z.of_nat (length tf)))%Z /\ (z = "Z" \/ z = "z")%char.

(** The form of a given date which is understood *)
Definition a_date (v : given) (w : given) : Prop :=
  match v with
  | GNone => w = GNone
  | GDate _ | GDatetime _ => w = v
  | GText t => exists d, writes_date t d /\ calendar d /\ w = GDate d
  | _ => False
  end.
Definition a_datetime (v : given) (w : given) : Prop :=
  match v with
  | GNone => w = GNone
  | GDatetime _ => w = v
  | GText t => exists d, writes_datetime t d /\ clock d /\ w = GDatetime d
  | _ => False
  end.
(** The same letters, whatever their case *)
Definition same_letter (a b : ascii) : Prop :=
  a = b \/ exists n, n < 26 /\ (a = ascii_of_nat (65 + n) /\ b = ascii_of_nat (97 + n) \/ b = ascii_of_nat (65 + n) /\ a = ascii_of_nat (97 + n)).
Definition names_gender (t : text) (g : gender) : Prop :=
  exists s : string, In (s, g) [("unknown", UNKNOWN); ("female", FEMALE); ("male", MALE); ("particular", PARTICULAR)]%string /\ Forall2 same_letter t (lit s).
Definition a_gender (v : given) (g : gender) : Prop :=
  match v with
  | GText t => names_gender t g
  | GGender g' => g = g'
  | GInt z => In (z, g) [(1, UNKNOWN); (2, FEMALE); (3, MALE); (4, PARTICULAR)]%Z
  | _ => False
  end.
(** The value of a keyword *)
Definition keyword (kwargs : list (text * given)) (key : string) (default v : given) : Prop :=
  In (lit key, v) kwargs \/ v = default /\ ~ In (lit key) (map fst kwargs).
