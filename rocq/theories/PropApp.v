(** C156: the application, its scene, its messages and its scripts. *)
From Coq Require Import String List Bool Arith Lia.
From Verif Require Import Base ModelApp.
Import ListNotations.
Local Open Scope string_scope.
Local Open Scope list_scope.

(** Whatever the calls, one application is made at most, by the first call whose constructor succeeds; it is the instance ever after, and the
    later calls are NameErrors. *)
Theorem C156_single {A} (calls : list (result A)) :
  ((forall c, In c calls -> exists e, c = Raise e) /\ snd (creates None calls) = None /\ fst (creates None calls) = calls) \/
  (exists before a after, calls = before ++ Ok a :: after /\ (forall c, In c before -> exists e, c = Raise e) /\
     snd (creates None calls) = Some a /\ fst (creates None calls) = before ++ Ok a :: map (fun _ => Raise NameError) after).
Proof.
  assert (L : forall l (a : A), creates (Some a) l = (map (fun _ => Raise NameError) l, Some a)).
  { induction l as [|c l IH]; intros a; [reflexivity|]. cbn [creates create snd fst]. rewrite IH. reflexivity. }
  induction calls as [|c calls IH]; [left; repeat split; intros c []|]. destruct c as [a|e].
  - right. exists [], a, calls. cbn [creates create fst snd]. rewrite L. repeat split. intros c [].
  - cbn [creates create fst snd]. destruct IH as [(H & S & F)|(b & a & l & E & H & S & F)].
    + left. rewrite S, F. repeat split. intros c [<- | I]; [eauto|auto].
    + right. exists (Raise e :: b), a, l. rewrite S, F, E. repeat split. intros c [<- | I]; [eauto|auto].
Qed.
Print Assumptions C156_single.

(** The signals are the changes of the scene: none is lost, none is repeated, and the last one is the scene. *)
Theorem C156_scene l : fst (set_scenes l) = last l None /\ last (snd (set_scenes l)) None = last l None /\
  (forall i a b, nth_error (None :: snd (set_scenes l)) i = Some a -> nth_error (snd (set_scenes l)) i = Some b -> a <> b) /\
  (forall x, In x (snd (set_scenes l)) -> In x l) /\ (forall x, In x l -> x = None \/ In x (snd (set_scenes l))).
Proof.
  unfold set_scenes. induction l as [|x l IH] using rev_ind.
  { repeat split; try reflexivity; try contradiction. intros [|i] a b _ B; discriminate B. }
  rewrite fold_left_app. cbn [fold_left]. destruct (fold_left set_scene l (None, [])) as [cur sig]. cbn [fst snd] in IH. destruct IH as (C & G & D & I & J).
  rewrite last_last. unfold set_scene. cbn [fst snd].
  destruct (match cur, x with Some a, Some b => Nat.eqb a b | None, None => true | _, _ => false end) eqn:E; cbn [fst snd].
  - assert (X : cur = x) by (destruct cur, x; try discriminate E; [apply Nat.eqb_eq in E; congruence|reflexivity]). subst x.
    split; [reflexivity|]. split; [congruence|]. split; [exact D|]. split; [intros y Y; apply in_app_iff; left; auto|].
    intros y Y. apply in_app_iff in Y. destruct Y as [Y|[<- | []]]; [auto|]. destruct cur as [c|]; [|left; reflexivity]. right. rewrite <- G in C.
    destruct sig as [|s sig] using rev_ind; [discriminate C|]. rewrite last_last in C. subst s. apply in_app_iff. right. left. reflexivity.
  - assert (X : cur <> x) by (intros ->; destruct x; [rewrite Nat.eqb_refl in E|]; discriminate E).
    split; [reflexivity|]. split; [apply last_last|]. split; [|split].
    + intros i a b A B. destruct (Nat.lt_ge_cases i (length sig)) as [H|H].
      * rewrite nth_error_app1 in B by exact H. apply (D i a b); [|exact B]. destruct i as [|i]; [exact A|]. cbn [nth_error] in *. rewrite nth_error_app1 in A by lia. exact A.
      * rewrite nth_error_app2 in B by exact H. destruct (i - length sig) as [|k] eqn:K; [|destruct k; discriminate B]. injection B as <-. assert (i = length sig) by lia. subst i.
        assert (Y : a = cur); [|congruence]. rewrite C, <- G. destruct sig as [|s sig _] using rev_ind; [injection A as <-; reflexivity|].
        rewrite last_last. rewrite app_length in A. cbn [length] in A. rewrite Nat.add_1_r in A. cbn [nth_error] in A. rewrite <- app_assoc, nth_error_app2, Nat.sub_diag in A by lia. injection A as <-. reflexivity.
    + intros y Y. apply in_app_iff in Y. apply in_app_iff. destruct Y as [Y|Y]; [left; auto|right; exact Y].
    + intros y Y. apply in_app_iff in Y. rewrite in_app_iff. destruct Y as [Y|Y]; [destruct (J y Y); auto|right; right; exact Y].
Qed.
Print Assumptions C156_scene.

(** A message of Qt goes to one place, with the name of its file and its function; one of another type is an error. *)
Theorem C156_messages name_of t file function msg : let m := ((match file with Some f => name_of f | None => "" end) ++ " " ++ (match function with Some f => f | None => "None" end) ++ " — " ++ msg)%string in
  message_handler name_of t file function msg = match t with
    | QtDebugMsg => Ok (Debug m) | QtInfoMsg => Ok (Info m) | QtWarningMsg => Ok (Warning m) | QtCriticalMsg | QtFatalMsg => Ok (Printed m)
    | QtOther => Raise UnboundLocalError end.
Proof. destruct t; reflexivity. Qed.
Print Assumptions C156_messages.

(** A script is run once, with the application as its only name; the program goes on exactly when it finishes; a failure is printed. *)
Section Script.
Context {A C W : Type}.
Variable compile : string -> compiling C.
Variable exec : C -> list (string * A) -> W -> running * W.
Theorem C156_script app file w out fin w' : execute_user_script compile exec app file w = (out, fin, w') ->
  (fin = Returned <-> exists s c, file = Source s /\ compile s = Code c /\ exec c [("application", app)] w = (Finished, w')) /\
  (forall s c m, file = Source s -> compile s = Code c -> exec c [("application", app)] w = (Raised m, w') -> out = [Printed m] /\ fin = Exit 1) /\
  (forall s m, file = Source s -> compile s = SyntaxErr m -> out = [Printed m] /\ fin = Exit 1 /\ w' = w) /\
  (file = FileNotFound -> fin = Exit 1 /\ w' = w).
Proof.
  unfold execute_user_script. destruct file as [s| |]; [destruct (compile s) as [c|m|] eqn:K; [destruct (exec c _ w) as [[|m|n] w1] eqn:E|..]|..]; intros H; injection H as <- <- <-;
    (split; [split; [try discriminate|intros (s' & c' & F & G & X); try discriminate F; injection F as <-; congruence]|]);
    try (intros _; exists s, c; repeat split; assumption);
    (split; [intros s' c' m' F G X; try discriminate F; injection F as <-; rewrite K in G; try discriminate G; injection G as <-; rewrite E in X; try discriminate X; injection X as <-; auto|]);
    (split; [intros s' m' F G; try discriminate F; injection F as <-; rewrite K in G; try discriminate G; injection G as <-; auto|]);
    intros F; try discriminate F; auto.
Qed.
(** Not what one expects: a file which cannot be read or decoded, or cannot be compiled for another reason, is reported to nobody. *)
Theorem C156_script_refuted app w : execute_user_script compile exec app Unreadable w = ([], Escaped, w) /\
  (forall s, compile s = Uncompilable -> execute_user_script compile exec app (Source s) w = ([], Escaped, w)).
Proof. split; [reflexivity|]. intros s K. unfold execute_user_script. rewrite K. reflexivity. Qed.
End Script.
Print Assumptions C156_script.
Print Assumptions C156_script_refuted.

(** The path of an option is stored under its name, as a path or a list of paths in order; the other options are kept. *)
Theorem C156_paths {P} (path : string -> P) dest ns k l s : 
  path_action path dest (VList l) ns dest = Some (PList (map path l)) /\ path_action path dest (VOne s) ns dest = Some (POne (path s)) /\
  path_action path dest VNone ns dest = Some PNone /\ (k <> dest -> forall v, path_action path dest v ns k = ns k).
Proof.
  unfold path_action. rewrite String.eqb_refl. repeat split. intros N v. apply String.eqb_neq in N. rewrite N. reflexivity.
Qed.
Print Assumptions C156_paths.

Example C156_case :
  creates None [Raise ValueError; Ok 1; Ok 2; Raise TypeError] = ([Raise ValueError; Ok 1; Raise NameError; Raise NameError], Some 1) /\
  set_scenes [None; Some 1; Some 1; Some 2; None; Some 1] = (Some 1, [Some 1; Some 2; None; Some 1]) /\
  execute_user_script (fun s => Code s) (fun c ns w => (Finished, w ++ [(c, map fst ns)])) 0 (Source "x") [] = ([Info "User script done"], Returned, [("x", ["application"])]).
Proof. repeat split. Qed.
