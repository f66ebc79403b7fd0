(** Dates and the data of a person: Common/Datetime.py, Measurement/PersonalData.py. *)
From Coq Require Import String Ascii List Bool Arith ZArith Lia.
From Verif Require Import Base ModelFormula ModelMeasure ModelDate SpecDate ProofMeasure ProofDate ProofDate2 ProofDate3.
Import ListNotations.
Local Open Scope result_scope.

(** ensure_date gives the date which is written, for every text which writes a date of the calendar; every other text is a ValueError. *)
Theorem C131_dates t :
  (forall w, ensure_date (GText t) = Ok w <-> exists d, w = GDate d /\ writes_date t d /\ calendar d) /\
  (~ (exists d, writes_date t d /\ calendar d) -> ensure_date (GText t) = Raise ValueError).
Proof.
  assert (A : forall w, ensure_date (GText t) = Ok w <-> exists d, w = GDate d /\ writes_date t d /\ calendar d).
  { intros w. split; [intros E; apply (birth_iff (GText t) w) in E; destruct E as (d & W & C & ->); exists d; auto|intros (d & -> & W & C); apply (birth_iff (GText t) (GDate d)); exists d; auto]. }
  split; [exact A|]. intros N. destruct (proj1 (ensure_or (GText t))) as [[w E]|E]; [|exact E]. exfalso. apply A in E. destruct E as (d & _ & H). apply N. exists d. exact H.
Qed.
Print Assumptions C131_dates.
(** The same for the times *)
Theorem C131_times t :
  (forall w, ensure_datetime (GText t) = Ok w <-> exists d, w = GDatetime d /\ writes_datetime t d /\ clock d) /\
  (~ (exists d, writes_datetime t d /\ clock d) -> ensure_datetime (GText t) = Raise ValueError).
Proof.
  assert (A : forall w, ensure_datetime (GText t) = Ok w <-> exists d, w = GDatetime d /\ writes_datetime t d /\ clock d).
  { intros w. split; [intros E; apply (measured_iff (GText t) w) in E; destruct E as (d & W & C & ->); exists d; auto|intros (d & -> & W & C); apply (measured_iff (GText t) (GDatetime d)); exists d; auto]. }
  split; [exact A|]. intros N. destruct (proj2 (ensure_or (GText t))) as [[w E]|E]; [|exact E]. exfalso. apply A in E. destruct E as (d & _ & H). apply N. exists d. exact H.
Qed.
Print Assumptions C131_times.
(** The text of a date is read back, and the dates themselves are kept. *)
Theorem C131_written d : calendar d -> ensure_date (GText (date_str d)) = Ok (GDate d) /\ ensure_date (GDate d) = Ok (GDate d).
Proof. intros C. split; [|reflexivity]. apply C131_dates. exists d. split; [reflexivity|]. split; [exact (date_written d C)|exact C]. Qed.
Print Assumptions C131_written.
(** Not so for the times: the text of a time is not read back; a date is not a time. *)
Theorem C131_text_refuted : ~ forall t, clock t -> ensure_datetime (GText (datetime_str t)) = Ok (GDatetime t).
Proof.
  intros H. specialize (H (Datetime (Date 1970 1 1) 12 0 0 123000)). enough (C : clock (Datetime (Date 1970 1 1) 12 0 0 123000)) by (specialize (H C); vm_compute in H; discriminate H).
  split; [apply calendar_iff; cbn; lia|cbn; lia].
Qed.
Print Assumptions C131_text_refuted.
Theorem C131_date_refused d : ensure_datetime (GDate d) = Raise ValueError.
Proof.
  destruct (proj2 (ensure_or (GDate d))) as [[w E]|E]; [|exact E]. exfalso. exact (proj1 (measured_iff (GDate d) w) E).
Qed.
Print Assumptions C131_date_refused.
Example C131_example :
  ensure_date (GText (lit "2000-02-29")) = Ok (GDate (Date 2000 2 29)) /\ ensure_date (GText (lit "1900-02-29")) = Raise ValueError /\
  ensure_date (GText (lit "1970-1- 1")) = Ok (GDate (Date 1970 1 1)) /\ ensure_date (GText (lit "70-01-01")) = Raise ValueError /\
  ensure_datetime (GText (lit "1970-01-01T12:00:00.123Z")) = Ok (GDatetime (Datetime (Date 1970 1 1) 12 0 0 123000)) /\
  ensure_datetime (GText (lit "1970-01-01T12:00:00Z")) = Raise ValueError /\
  writes_date (lit "1970-1- 1") (Date 1970 1 1) /\ calendar (Date 2000 2 29) /\ ~ calendar (Date 1900 2 29).
Proof.
  do 6 (split; [vm_compute; reflexivity|]). split; [|split].
  - apply date_iff. vm_compute. reflexivity.
  - apply calendar_iff. vm_compute. intuition discriminate.
  - intros C. apply calendar_iff in C. vm_compute in C. intuition.
Qed.

(** The object holds what the keywords give, and is made only when the dates and the gender are understood. *)
Theorem C132_personal kwargs p : NoDup (map fst kwargs) ->
  new_personal kwargs = Ok p <->
  exists f l b m g e c,
    keyword kwargs "first_name" (GText []) f /\ keyword kwargs "last_name" (GText []) l /\ keyword kwargs "birth_date" GNone b /\
    keyword kwargs "measurement_date" GNone m /\ keyword kwargs "gender" (GGender UNKNOWN) g /\ keyword kwargs "email" (GText []) e /\ keyword kwargs "comment" (GText []) c /\
    first_name p = str f /\ last_name p = str l /\ a_date b (birth_date p) /\ a_datetime m (measurement_date p) /\ a_gender g (p_gender p) /\ email p = str e /\ comment p = str c.
Proof.
  intros N. rewrite personal_iff. split.
  - intros (B & M & G & F & L & E & C). do 7 eexists. do 7 (split; [apply (get_keyword _ _ _ _ N); reflexivity|]). tauto.
  - intros (f & l & b & m & g & e & c & H). rewrite <- !(get_keyword kwargs _ _ _ N) in H. destruct H as (-> & -> & -> & -> & -> & -> & -> & H). tauto.
Qed.
Print Assumptions C132_personal.
(** A text given for a name is kept as it is; but nothing given is the text None. *)
Theorem C132_none_refuted : ~ forall p, new_personal [(lit "first_name", GNone)] = Ok p -> first_name p = [].
Proof. intros H. specialize (H _ eq_refl). discriminate H. Qed.
Print Assumptions C132_none_refuted.
(** A keyword which is not known is not an error. *)
Theorem C132_unknown_refuted : ~ forall kwargs k v, In (k, v) kwargs ->
  ~ In k (map lit ["first_name"; "last_name"; "birth_date"; "measurement_date"; "gender"; "email"; "comment"]%string) -> ~ is_ok (new_personal kwargs).
Proof.
  intros H. apply (H [(lit "birthdate", GText (lit "1970-01-01"))] (lit "birthdate") (GText (lit "1970-01-01"))); [now left| |eexists; reflexivity].
  intros I. cbn [map In] in I. repeat (destruct I as [I|I]; [discriminate I|]). exact I.
Qed.
Print Assumptions C132_unknown_refuted.
(** The birth date is not always a plain date. *)
Theorem C132_plain_refuted : ~ forall kwargs p, new_personal kwargs = Ok p -> birth_date p = GNone \/ exists d, birth_date p = GDate d.
Proof.
  intros H. destruct (H [(lit "birth_date", GDatetime (Datetime (Date 1970 1 1) 12 0 0 0))] _ eq_refl) as [E|[d E]]; discriminate E.
Qed.
Print Assumptions C132_plain_refuted.
Example C132_example :
  exists p, new_personal [(lit "gender", GText (lit "Female")); (lit "first_name", GText (lit "Ada")); (lit "birth_date", GText (lit "1815-12-10"))] = Ok p /\
  p_gender p = FEMALE /\ first_name p = lit "Ada" /\ birth_date p = GDate (Date 1815 12 10) /\ email p = [] /\
  new_personal [(lit "gender", GText (lit "F"))] = Raise KeyError /\ new_personal [(lit "gender", GInt 5)] = Raise ValueError.
Proof. eexists. split; [vm_compute; reflexivity|]. vm_compute. repeat split. Qed.
