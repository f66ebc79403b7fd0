(** Lemmas on the package QtShim. *)
From Coq Require Import String Ascii List Bool.
From Verif Require Import Base ModelFormula ModelShimData ModelShim.
Import ListNotations.
Local Open Scope string_scope.
Local Open Scope list_scope.
Local Open Scope result_scope.

Section Dict.
Context {A : Type}.
Lemma get_put_eq k (x : A) l : get k (put k x l) = Some x.
Proof. induction l as [|[n y] l IH]; cbn [put get]; [rewrite String.eqb_refl; reflexivity|]. destruct (String.eqb k n) eqn:E; cbn [get]; rewrite E; auto. Qed.
Lemma get_put_neq k n (x : A) l : k <> n -> get k (put n x l) = get k l.
Proof.
  intros N. apply String.eqb_neq in N. induction l as [|[m y] l IH]; cbn [put get]; [rewrite N; reflexivity|].
  destruct (String.eqb_spec n m) as [->|M]; cbn [get]; [rewrite N; reflexivity|]. rewrite IH. reflexivity.
Qed.
Lemma get_in k (l : list (string * A)) : existsb (String.eqb k) (map fst l) = true <-> get k l <> None.
Proof.
  induction l as [|[n x] l IH]; cbn [map existsb get fst]; [split; [discriminate|congruence]|].
  destruct (String.eqb k n); cbn [orb]; [split; [discriminate|reflexivity]|exact IH].
Qed.
End Dict.
Lemma mem_in n l : existsb (String.eqb n) l = true <-> In n l.
Proof.
  rewrite existsb_exists. split; [intros (x & I & E); apply String.eqb_eq in E; subst; exact I|]. intros I. exists n. split; [exact I|apply String.eqb_refl].
Qed.

Section Shim.
Variable value : Type.
Variable attr : value -> string -> option value.
Variable truth : value -> bool.
Variable installed : string -> option (binding value).
Variable top_level : string -> option value.
Variable common : list (string * list string).
Variable misplaced : string -> list (string * string).
Notation setup1 := (setup1 value top_level).
Notation setup := (setup value top_level common).
Notation reassign1 := (reassign1 value attr truth common).
Notation reassign := (reassign value attr truth common).
Notation members1 := (members1 value attr).
Notation member1 := (member1 value attr).
Notation choose := (choose value attr truth installed top_level common misplaced).
Notation install := (install value attr truth installed top_level common misplaced).
Notation initialise := (initialise value attr truth top_level common misplaced).

(** The sub-module of a binding, or a module of that name *)
Definition source (b : binding value) (m : string) : option value :=
  match b_sub b m with Some v => Some v | None => top_level m end.
(** The member of a module of the package *)
Definition shows (s : shim value) (m x : string) : option value := match get m (ours s) with Some l => get x l | None => None end.

Lemma import_shows (s : shim value) m x w : import s m x = Ok w <-> In m (loaded s) /\ shows s m x = Some w.
Proof.
  unfold import, shows. rewrite <- mem_in. destruct (existsb (String.eqb m) (loaded s)); [|split; [discriminate|intros [D _]; discriminate D]].
  destruct (get m (ours s)) as [l|]; [|split; [discriminate|intros [_ D]; discriminate D]].
  destruct (get x l) as [y|]; [|split; [discriminate|intros [_ D]; discriminate D]]. split; [intros H; injection H as ->; auto|intros [_ H]; injection H as ->; auto].
Qed.

(** *** _setup *)
Lemma setup_fold b l : forall s m, get m (theirs (fold_left (setup1 b) l s)) =
  (if existsb (String.eqb m) l then match source b m with Some v => Some v | None => get m (theirs s) end else get m (theirs s)) /\
  loaded (fold_left (setup1 b) l s) = loaded s /\ public (fold_left (setup1 b) l s) = public s.
Proof.
  induction l as [|n l IH]; intros s m; [repeat split|]. cbn [fold_left existsb]. destruct (IH (setup1 b s n) m) as (E & L & P). rewrite E, L, P.
  unfold setup1, source. destruct (String.eqb_spec m n) as [->|N]; cbn [orb].
  - destruct (b_sub b n) as [v|]; cbn [theirs]; [rewrite get_put_eq; destruct (existsb _ l); auto|].
    destruct (top_level n) as [v|]; cbn [theirs]; [rewrite get_put_eq; destruct (existsb _ l); auto|]. destruct (existsb _ l); auto.
  - destruct (b_sub b n) as [v|]; cbn [theirs]; [rewrite get_put_neq by exact N; auto|].
    destruct (top_level n) as [v|]; cbn [theirs]; [rewrite get_put_neq by exact N; auto|]. auto.
Qed.
Lemma setup_ours b l : forall s m, get m (ours (fold_left (setup1 b) l s)) = 
  (if existsb (String.eqb m) l then match source b m with Some v => Some [] | None => get m (ours s) end else get m (ours s)).
Proof.
  induction l as [|n l IH]; intros s m; [reflexivity|]. cbn [fold_left existsb]. rewrite IH. unfold setup1, source.
  destruct (String.eqb_spec m n) as [->|N]; cbn [orb].
  - destruct (b_sub b n) as [v|]; cbn [ours]; [rewrite get_put_eq; destruct (existsb _ l); auto|].
    destruct (top_level n) as [v|]; cbn [ours]; [rewrite get_put_eq; destruct (existsb _ l); auto|]. destruct (existsb _ l); auto.
  - destruct (b_sub b n) as [v|]; cbn [ours]; [rewrite get_put_neq by exact N; auto|].
    destruct (top_level n) as [v|]; cbn [ours]; [rewrite get_put_neq by exact N; auto|]. auto.
Qed.

(** *** set_member *)
Lemma shows_set_eq s m x (v : value) : shows (set_member s m x v) m x = Some v.
Proof. unfold shows, set_member. cbn [ours]. rewrite get_put_eq. apply get_put_eq. Qed.
Lemma shows_set_neq s m x (v : value) m' x' : m' <> m \/ x' <> x -> shows (set_member s m x v) m' x' = shows s m' x'.
Proof.
  intros N. unfold shows, set_member. cbn [ours]. destruct (String.eqb_spec m' m) as [->|M].
  - rewrite get_put_eq. destruct N as [N|N]; [congruence|]. rewrite get_put_neq by exact N. destruct (get m (ours s)); reflexivity.
  - rewrite get_put_neq by exact M. reflexivity.
Qed.

(** *** _reassign_misplaced_members *)
Definition two (e : string * string) : Prop := exists m x l, cut "." (snd e) = m :: x :: l.
Definition target (e : string * string) (m x : string) : Prop := exists l, cut "." (snd e) = m :: x :: l.
Lemma reassign1_ok s e : two e -> cut "." (fst e) <> [] -> exists s', reassign1 s e = Ok s' /\ theirs s' = theirs s /\ public s' = public s /\
  (forall m x, ~ target e m x -> shows s' m x = shows s m x).
Proof.
  intros (m & x & l & D) S. unfold reassign1. rewrite D. destruct (cut "." (fst e)) as [|sm sx]; [congruence|].
  destruct (get sm (theirs s)) as [v|]; [|exists s; auto]. destruct (walk value attr v sx) as [w|]; [|exists s; auto]. cbv zeta.
  destruct (get m (ours s)) as [k|] eqn:G.
  - eexists. split; [reflexivity|]. split; [reflexivity|]. split; [reflexivity|]. intros m' x' N. apply shows_set_neq.
    destruct (String.eqb_spec m' m) as [->|]; [right; intros ->; apply N; exists l; exact D|left; assumption].
  - destruct (existsb (String.eqb m) (map fst common)); [|exists s; auto]. eexists. split; [reflexivity|]. split; [reflexivity|]. split; [reflexivity|].
    intros m' x' N. assert (O : m' <> m \/ x' <> x) by (destruct (String.eqb_spec m' m) as [->|]; [right; intros ->; apply N; exists l; exact D|left; assumption]).
    rewrite shows_set_neq by exact O. unfold shows. cbn [ours]. destruct (String.eqb_spec m' m) as [->|M]; [rewrite get_put_eq, G; reflexivity|].
    rewrite get_put_neq by exact M. reflexivity.
Qed.
Lemma reassign_ok l : forall s, Forall two l -> Forall (fun e => cut "." (fst e) <> []) l -> exists s', reassign s l = Ok s' /\ theirs s' = theirs s /\ public s' = public s /\
  (forall m x, (forall e, In e l -> ~ target e m x) -> shows s' m x = shows s m x).
Proof.
  induction l as [|e l IH]; intros s T N; [exists s; repeat split; reflexivity|]. inversion T; inversion N; subst.
  destruct (reassign1_ok s e) as (s1 & E & A & B & C); [assumption|assumption|]. destruct (IH s1) as (s2 & E2 & A2 & B2 & C2); [assumption|assumption|].
  exists s2. cbn [ModelShim.reassign]. rewrite E. cbn [bind]. split; [exact E2|]. split; [congruence|]. split; [congruence|].
  intros m x H0. rewrite C2 by (intros e' I; apply H0; right; exact I). apply C. apply H0. left. reflexivity.
Qed.
Lemma reassign_app l1 : forall l2 s, reassign s (l1 ++ l2) = (x <- reassign s l1 ;; reassign x l2).
Proof. induction l1 as [|e l1 IH]; intros l2 s; [reflexivity|]. cbn [app ModelShim.reassign]. destruct (reassign1 s e) as [s'|]; [apply IH|reflexivity]. Qed.
(** The last entry of the table for a place decides when its source exists. *)
Lemma reassign_last l1 e l2 s m x sm sx v w : Forall two (l1 ++ e :: l2) -> Forall (fun e => cut "." (fst e) <> []) (l1 ++ e :: l2) ->
  target e m x -> (forall e', In e' l2 -> ~ target e' m x) -> cut "." (fst e) = sm :: sx -> get sm (theirs s) = Some v -> walk value attr v sx = Some w ->
  existsb (String.eqb m) (map fst common) = true ->
  exists s', reassign s (l1 ++ e :: l2) = Ok s' /\ shows s' m x = Some (if truth w then w else v).
Proof.
  intros T N [l D] L S G W M. rewrite reassign_app. apply Forall_app in T. apply Forall_app in N. destruct T as [T1 T2], N as [N1 N2].
  destruct (reassign_ok l1 s T1 N1) as (s1 & E1 & A1 & _ & _). rewrite E1. cbn [bind ModelShim.reassign].
  assert (X : exists s2, reassign1 s1 e = Ok s2 /\ shows s2 m x = Some (if truth w then w else v)).
  { unfold ModelShim.reassign1. rewrite D, S, A1, G, W. cbv zeta. destruct (get m (ours s1)); [eexists; split; [reflexivity|apply shows_set_eq]|].
    rewrite M. eexists. split; [reflexivity|apply shows_set_eq]. }
  destruct X as (s2 & E2 & V). rewrite E2. cbn [bind]. inversion T2; inversion N2; subst.
  destruct (reassign_ok l2 s2) as (s3 & E3 & _ & _ & C3); [assumption|assumption|]. exists s3. split; [exact E3|]. rewrite C3 by exact L. exact V.
Qed.

(** *** The members *)
Lemma member_fold v m l : forall s, theirs (fold_left (member1 v m) l s) = theirs s /\ loaded (fold_left (member1 v m) l s) = loaded s /\
  public (fold_left (member1 v m) l s) = public s /\
  (forall m' x, m' <> m -> shows (fold_left (member1 v m) l s) m' x = shows s m' x) /\
  (forall x, shows (fold_left (member1 v m) l s) m x = if existsb (String.eqb x) l then match attr v x with Some w => Some w | None => shows s m x end else shows s m x).
Proof using value attr. clear installed top_level common misplaced truth.
  induction l as [|n l IH]; intros s; [repeat split; reflexivity|]. cbn [fold_left existsb]. destruct (IH (member1 v m s n)) as (A & B & C & D & E). rewrite A, B, C.
  assert (F : theirs (member1 v m s n) = theirs s /\ loaded (member1 v m s n) = loaded s /\ public (member1 v m s n) = public s).
  { unfold ModelShim.member1. destruct (attr v n); repeat split. }
  destruct F as (F1 & F2 & F3). split; [exact F1|]. split; [exact F2|]. split; [exact F3|]. split.
  - intros m' x N. rewrite D by exact N. unfold ModelShim.member1. destruct (attr v n); [apply shows_set_neq; left; exact N|reflexivity].
  - intros x. rewrite E. unfold ModelShim.member1. destruct (String.eqb_spec x n) as [->|N]; cbn [orb].
    + destruct (attr v n) as [w|]; [rewrite shows_set_eq|]; destruct (existsb _ l); reflexivity.
    + destruct (attr v n) as [w|]; [rewrite shows_set_neq by (right; exact N)|]; reflexivity.
Qed.
Lemma members1_spec s e : let s' := members1 s e in theirs s' = theirs s /\
  (forall m' x, m' <> fst e -> shows s' m' x = shows s m' x) /\
  (forall x, shows s' (fst e) x = match get (fst e) (theirs s) with
     | Some v => if existsb (String.eqb x) (snd e) then match attr v x with Some w => Some w | None => shows s (fst e) x end else shows s (fst e) x
     | None => shows s (fst e) x end) /\
  (forall m, In m (loaded s') <-> In m (loaded s) \/ (m = fst e /\ get m (theirs s) <> None)) /\
  (forall m, In m (public s') <-> In m (public s) \/ (m = fst e /\ get m (theirs s) <> None)).
Proof using value attr. clear installed top_level common misplaced truth.
  cbv zeta. unfold ModelShim.members1. destruct (get (fst e) (theirs s)) as [v|] eqn:G.
  - set (s1 := Shim _ _ _ _). destruct (member_fold v (fst e) (snd e) s1) as (A & B & C & D & E). rewrite A, B, C. split; [reflexivity|]. split; [|split; [|split]].
    + intros m' x N. rewrite D by exact N. reflexivity.
    + intros x. rewrite E. reflexivity.
    + intros m. unfold s1. cbn [loaded]. rewrite in_app_iff. cbn [In]. split; [intros [I|[<-|[]]]; [left; exact I|right; split; [reflexivity|congruence]]|].
      intros [I|[-> _]]; auto.
    + intros m. unfold s1. cbn [public]. rewrite in_app_iff. cbn [In]. split; [intros [I|[<-|[]]]; [left; exact I|right; split; [reflexivity|congruence]]|].
      intros [I|[-> _]]; auto.
  - repeat split; auto; try tauto; intros [I|[-> N]]; [exact I|congruence|exact I|congruence].
Qed.
Lemma members_other l : forall s m x, ~ In m (map fst l) -> shows (fold_left members1 l s) m x = shows s m x.
Proof using value attr. clear installed top_level common misplaced truth.
  induction l as [|e l IH]; intros s m x N; [reflexivity|]. cbn [fold_left]. rewrite IH by (intros I; apply N; right; exact I).
  destruct (members1_spec s e) as (_ & B & _). apply B. intros ->. apply N. left. reflexivity.
Qed.
Lemma members_theirs l : forall s, theirs (fold_left members1 l s) = theirs s.
Proof using value attr. clear installed top_level common misplaced truth. induction l as [|e l IH]; intros s; [reflexivity|]. cbn [fold_left]. rewrite IH. apply (members1_spec s e). Qed.
Lemma members_fold l : NoDup (map fst l) -> forall s m names, In (m, names) l -> forall x,
  shows (fold_left members1 l s) m x = match get m (theirs s) with
     | Some v => if existsb (String.eqb x) names then match attr v x with Some w => Some w | None => shows s m x end else shows s m x
     | None => shows s m x end.
Proof using value attr. clear installed top_level common misplaced truth.
  induction l as [|e l IH]; intros D s m names I x; [contradiction|]. cbn [map] in D. inversion D as [|? ? N D']; subst. cbn [fold_left].
  destruct (members1_spec s e) as (A & B & C & _). destruct I as [->|I].
  - cbn [fst snd] in *. rewrite members_other by exact N. apply C.
  - rewrite (IH D' _ _ _ I), A. assert (M : m <> fst e) by (intros ->; apply N; apply (in_map fst) in I; exact I). rewrite B by exact M. reflexivity.
Qed.
Lemma members_loaded l : forall s m, In m (loaded (fold_left members1 l s)) <-> In m (loaded s) \/ (In m (map fst l) /\ get m (theirs s) <> None).
Proof using value attr. clear installed top_level common misplaced truth.
  induction l as [|e l IH]; intros s m; [cbn; tauto|]. cbn [fold_left map In]. rewrite IH. destruct (members1_spec s e) as (A & _ & _ & L & _). rewrite A, L.
  split; [intros [[I|[-> N]]|[I N]]; auto|]. intros [I|[[E|I] N]]; auto.
Qed.
Lemma members_public l : forall s m, In m (public (fold_left members1 l s)) <-> In m (public s) \/ (In m (map fst l) /\ get m (theirs s) <> None).
Proof using value attr. clear installed top_level common misplaced truth.
  induction l as [|e l IH]; intros s m; [cbn; tauto|]. cbn [fold_left map In]. rewrite IH. destruct (members1_spec s e) as (A & _ & _ & _ & L). rewrite A, L.
  split; [intros [[I|[-> N]]|[I N]]; auto|]. intros [I|[[E|I] N]]; auto.
Qed.

(** *** _install *)
Definition usable (n : string) (b : binding value) : Prop := In n ["PySide2"; "PyQt5"] /\ installed n = Some b.
Lemma choose_spec order : 
  (forall n b l, (exists l1, order = l1 ++ n :: l /\ forall k c, In k l1 -> ~ usable k c) -> usable n b -> choose order = (s <- initialise n b ;; Ok (n, s))) /\
  ((forall n b, In n order -> ~ usable n b) -> choose order = Raise LookupError).
Proof.
  induction order as [|k order IH]; split.
  - intros n b l ([|] & E & _); discriminate E.
  - reflexivity.
  - intros n b l (l1 & E & N) U. cbn [ModelShim.choose]. destruct l1 as [|j l1]; cbn [app] in E; injection E as -> ->.
    + destruct U as [I U]. apply mem_in in I. rewrite I, U. reflexivity.
    + destruct (existsb (String.eqb j) ["PySide2"; "PyQt5"]) eqn:X.
      * destruct (installed j) as [c|] eqn:C; [exfalso; apply (N j c (or_introl eq_refl)); split; [apply mem_in; exact X|exact C]|].
        apply IH with (b := b) (l := l); [|exact U]. exists l1. split; [reflexivity|]. intros k c I. apply N. right. exact I.
      * apply IH with (b := b) (l := l); [|exact U]. exists l1. split; [reflexivity|]. intros k c I. apply N. right. exact I.
  - intros N. cbn [ModelShim.choose]. destruct (existsb (String.eqb k) ["PySide2"; "PyQt5"]) eqn:X.
    + destruct (installed k) as [c|] eqn:C; [exfalso; apply (N k c (or_introl eq_refl)); split; [apply mem_in; exact X|exact C]|].
      apply IH. intros n b I. apply N. right. exact I.
    + apply IH. intros n b I. apply N. right. exact I.
Qed.
End Shim.
