From Coq Require Import String Ascii List Bool Arith ZArith NArith.
From Verif Require Import Base ModelFormula ModelMeasure ModelXml ModelColor ModelColorData SpecColor ProofMeasure ProofColor.
Import ListNotations.

Definition loads (r : result database) : bool := match r with Ok _ => true | Raise _ => false end.
Lemma sets_loaded : is_ok (fill [] color_sets).
Proof.
  assert (H : loads (fill [] color_sets) = true) by (vm_compute; reflexivity).
  destruct (fill [] color_sets) as [db|]; [exists db; reflexivity|discriminate].
Qed.
Definition replaced : list text := [lit "goldenrod"; lit "green"; lit "lime"; lit "orange"; lit "violet"].
Definition valentina_check (e : text * text) : bool :=
  match first_given color_sets (fst e) with
  | Some v =>
      match text_of v with
      | Ok t => Bool.eqb (text_eqb t (snd e)) (negb (existsb (text_eqb (fst e)) replaced))
      | Raise _ => false
      end
  | None => false
  end.
Lemma valentina_checked : forallb valentina_check valentina_colors = true.
Proof. vm_compute. reflexivity. Qed.
Lemma valentina_names_ok db : fill [] color_sets = Ok db -> forall name v, In (name, v) valentina_colors ->
  exists d t, getitem db name = Ok d /\ color_str d = Ok t /\ (t = v <-> ~ In name replaced).
Proof.
  intros H name v I. pose proof (proj1 (forallb_forall _ _) valentina_checked _ I) as C. unfold valentina_check in C. cbn [fst snd] in C.
  pose proof (database_ok _ _ H name) as K. destruct (first_given color_sets name) as [w|]; [|discriminate]. destruct K as (d & K1 & K2).
  destruct (text_of w) as [t|]; [|discriminate]. exists d, t. split; [exact K1|]. split; [exact K2|]. apply eqb_prop in C.
  assert (E : existsb (text_eqb name) replaced = true <-> In name replaced).
  { rewrite existsb_exists. split.
    - intros (x & X & Q). destruct (text_eqb_spec name x); [subst x; exact X|discriminate].
    - intro X. exists name. split; [exact X|]. destruct (text_eqb_spec name name); congruence. }
  destruct (text_eqb_spec t v) as [T|T].
  - split; [|intros _; exact T]. intros _ J. apply E in J. rewrite J in C. discriminate.
  - split; [intro; contradiction|]. intro J. exfalso. apply J. apply E. destruct (existsb (text_eqb name) replaced); [reflexivity|discriminate].
Qed.
