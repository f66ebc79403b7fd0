(** C36: the scopes of a pattern *)
From Coq Require Import String List Bool Arith ZArith.
From Verif Require Import Base ModelScope SpecScope ProofScope.
Import ListNotations.

(** After any history, an added scope is the last one, is reached by its index and by -1, and by its
    name exactly when no other scope had this name; the other names and indices are not disturbed. *)
Theorem C36_add h n : let p := scope_run h in let (p', s) := add_scope p n in
  s_name s = n /\ p_scopes p' = p_scopes p ++ [s] /\
  find_scope p' (Index (Z.of_nat (length (p_scopes p)))) = Ok (Some s) /\ find_scope p' (Index (-1)) = Ok (Some s) /\
  (find_scope p' (Name n) = Ok (Some s) <-> nobody (p_scopes p) n) /\
  (forall m, m <> n -> find_scope p' (Name m) = find_scope p (Name m)) /\
  (forall i, (0 <= i < Z.of_nat (length (p_scopes p)))%Z -> find_scope p' (Index i) = find_scope p (Index i)).
Proof. exact (add_reachable h n). Qed.
Print Assumptions C36_add.

(** After any history, removing by name never fails, removes the first scope of this name and leaves
    the others in order; the name is unreachable exactly when it had at most one scope. *)
Theorem C36_remove_partial h n : let p := scope_run h in exists p', remove_scope p (Name n) = Ok p' /\
  (nobody (p_scopes p) n -> p' = p) /\
  (forall s, is_first_named (p_scopes p) n s -> exists l1 l2, p_scopes p = l1 ++ s :: l2 /\ p_scopes p' = l1 ++ l2) /\
  (forall m, m <> n -> find_scope p' (Name m) = find_scope p (Name m)) /\
  (find_scope p' (Name n) = Ok None <-> (count_occ Bool.bool_dec (map (fun s => name_eqb (s_name s) n) (p_scopes p)) true <= 1)%nat).
Proof. exact (remove_by_name h n). Qed.
Print Assumptions C36_remove_partial.

(** A name given once is unreachable after its removal, and the other names stay in order. *)
Theorem C36_once h n p' : names_once [] h -> remove_scope (scope_run h) (Name n) = Ok p' ->
  find_scope p' (Name n) = Ok None /\ scope_names p' = filter (fun x => negb (name_eqb x n)) (scope_names (scope_run h)).
Proof. exact (remove_once h n p'). Qed.
Print Assumptions C36_once.

(** A name is reachable exactly when it was added more often than removed. *)
Theorem C36_history h n : Forall by_name h -> (exists s, find_scope (scope_run h) (Name n) = Ok (Some s)) <-> 0 < tally n 0 h.
Proof. exact (reachable_run h n). Qed.
Print Assumptions C36_history.

(** A scope which is renamed keeps its place; the other ones are unchanged. *)
Theorem C36_renamed h uid n s : In s (p_scopes (scope_run h)) -> s_uid s = uid ->
  exists l1 l2 s', p_scopes (scope_run h) = l1 ++ s :: l2 /\ p_scopes (rename_scope (scope_run h) uid n) = l1 ++ s' :: l2 /\
    s_uid s' = uid /\ s_name s' = n.
Proof. exact (rename_one h uid n s). Qed.
Print Assumptions C36_renamed.

(** The general claim is false: a name can be given twice. *)
Theorem C36_duplicate_refuted : exists h n p', remove_scope (scope_run h) (Name n) = Ok p' /\ find_scope p' (Name n) <> Ok None.
Proof. exists [Add (Some "a"); Add (Some "a")]%string, (Some "a"%string). eexists. split; [reflexivity|]. cbn. discriminate. Qed.
Print Assumptions C36_duplicate_refuted.

Example C36_example : names_once [] [Add (Some "a"); Add (Some "b"); Remove (Name (Some "a")); Add (Some "c"); Add (Some "a")]%string /\
  scope_names (scope_run [Add (Some "a"); Add (Some "b"); Remove (Name (Some "a")); Add (Some "c"); Add (Some "a")]%string) = [Some "b"; Some "c"; Some "a"]%string.
Proof. split; [cbn; repeat split; intuition discriminate|reflexivity]. Qed.
Example C36_tally : tally (Some "a"%string) 0 [Remove (Name (Some "a")); Add (Some "a"); Add (Some "a"); Remove (Name (Some "a"))]%string = 1.
Proof. reflexivity. Qed.
