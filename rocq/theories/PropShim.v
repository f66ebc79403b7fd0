(** C153: the Qt binding which the application uses, and the names it can import from it. *)
From Coq Require Import String Ascii List Bool.
From Verif Require Import Base ModelFormula ModelShimData ModelShim ProofShim.
Import ListNotations.
Local Open Scope string_scope.
Local Open Scope list_scope.
Local Open Scope result_scope.

(** *** What is said of the tables, by computation *)
Definition well_formed (l : list (string * string)) : bool :=
  forallb (fun e => match cut "." (fst e), cut "." (snd e) with _ :: _, _ :: _ :: _ => true | _, _ => false end) l.
Lemma well_formed_two l : well_formed l = true -> Forall two l /\ Forall (fun e => cut "." (fst e) <> []) l.
Proof.
  intros F. unfold well_formed in F. rewrite forallb_forall in F. split; apply Forall_forall; intros e I; specialize (F e I);
    destruct (cut "." (fst e)) as [|? ?]; try discriminate F; destruct (cut "." (snd e)) as [|a [|b c]] eqn:E; try discriminate F.
  - exists a, b, c. exact E.
  - discriminate.
Qed.
Lemma pair_ok {A B} (a : A) (b b' : B) : Ok (a, b) = Ok (a, b') -> b' = b.
Proof. intros H. injection H. auto. Qed.
Lemma ok_same {A} (a b : A) : Ok a = Ok b -> b = a.
Proof. intros H. injection H. auto. Qed.
Lemma target_dec e m x : {target e m x} + {~ target e m x}.
Proof.
  unfold target. destruct (cut "." (snd e)) as [|a [|b l]]; [right; intros [? H]; discriminate H|right; intros [? H]; discriminate H|].
  destruct (string_dec a m) as [->|N]; [|right; intros [? H]; injection H; congruence].
  destruct (string_dec b x) as [->|N]; [left; exists l; reflexivity|right; intros [? H]; injection H; congruence].
Qed.
Lemma tables_two n : Forall two (misplaced_members n) /\ Forall (fun e => cut "." (fst e) <> []) (misplaced_members n).
Proof. unfold misplaced_members. destruct (String.eqb n "PySide2"); apply well_formed_two; vm_compute; reflexivity. Qed.
Lemma common_NoDup : NoDup (map fst common_members).
Proof. cbv [map fst common_members]. repeat (constructor; [cbn [In]; intuition discriminate|]). constructor. Qed.
Lemma common_get m names : In (m, names) common_members -> existsb (String.eqb m) (map fst common_members) = true.
Proof. intros I. apply mem_in. apply (in_map fst) in I. exact I. Qed.

Section Bindings.
(** Python objects, their attributes, their truth values; the bindings and the modules which are installed *)
Variable value : Type.
Variable attr : value -> string -> option value.
Variable truth : value -> bool.
Variable installed : string -> option (binding value).
Variable top_level : string -> option value.
Notation install := (install value attr truth installed top_level common_members misplaced_members).
Notation choose := (choose value attr truth installed top_level common_members misplaced_members).
Notation initialise := (initialise value attr truth top_level common_members misplaced_members).
Notation setup := (setup value top_level common_members).
(** What the package knows of a module of the binding *)
Notation module_of b m := (match b_sub b m with Some v => Some v | None => top_level m end).
(** The names which the package knows how to set up *)
Definition known (n : string) : Prop := n = "PySide2" \/ n = "PyQt5".
(** The first of the names which is known and installed *)
Definition is_first (order : list string) (n : string) (b : binding value) : Prop :=
  exists l1 l2, order = l1 ++ n :: l2 /\ known n /\ installed n = Some b /\ forall k, In k l1 -> ~ known k \/ installed k = None.

Lemma usable_known n b : usable value installed n b <-> known n /\ installed n = Some b.
Proof. unfold usable, known. cbn [In]. split; [intros [[<- | [<- | []]] U]; auto|]. intros [[-> | ->] U]; auto. Qed.
Lemma initialise_ok n b : b_version b = Ok tt -> exists s, initialise n b = Ok s /\ theirs s = theirs (setup b) /\ public s = [] /\
  (forall m x, (forall e, In e (misplaced_members n) -> ~ target e m x) -> shows value s m x = None).
Proof.
  intros V. unfold ModelShim.initialise. rewrite V. destruct (tables_two n) as [T N].
  destruct (reassign_ok value attr truth common_members (misplaced_members n) (setup b) T N) as (s & E & A & B & C). exists s.
  split; [destruct (existsb _ _); exact E|]. split; [exact A|]. split.
  - rewrite B. apply (setup_fold value top_level b (map fst common_members) empty "").
  - intros m x H. rewrite C by exact H. unfold shows, ModelShim.setup. rewrite setup_ours. cbn [ModelShim.empty ours].
    destruct (existsb _ _); [destruct (source _ _ _ _); [reflexivity|]|]; cbn [get]; destruct (String.eqb m "QtCompat"); reflexivity.
Qed.
Lemma install_spec environ n b : is_first (preferred environ) n b -> b_version b = Ok tt ->
  exists s0, initialise n b = Ok s0 /\ install environ = Ok (n, fold_left (members1 value attr) common_members s0).
Proof.
  intros (l1 & l2 & O & K & I & F) V. destruct (initialise_ok n b V) as (s0 & E & _). exists s0. split; [exact E|]. unfold ModelShim.install.
  destruct (choose_spec value attr truth installed top_level common_members misplaced_members (preferred environ)) as [C _].
  rewrite (C n b l2); [rewrite E; reflexivity| |apply usable_known; auto]. exists l1. split; [exact O|].
  intros k c J U. apply usable_known in U. destruct U as [U1 U2]. destruct (F k J) as [X|X]; [exact (X U1)|congruence].
Qed.
Lemma theirs_setup b m : existsb (String.eqb m) (map fst common_members) = true -> get m (theirs (setup b)) = module_of b m.
Proof.
  intros M. destruct (setup_fold value top_level b (map fst common_members) empty m) as (E & _). unfold ModelShim.setup. rewrite E, M.
  unfold source. destruct (b_sub b m); [reflexivity|]. destruct (top_level m); reflexivity.
Qed.

(** The binding is the first of the order of preference which is known and installed. *)
Theorem C153_choice environ n b : is_first (preferred environ) n b -> b_version b = Ok tt -> exists s, install environ = Ok (n, s).
Proof. intros F V. destruct (install_spec environ n b F V) as (s0 & _ & E). eexists. exact E. Qed.
(** Without one the import of the package fails. *)
Theorem C153_none environ : (forall n, In n (preferred environ) -> ~ known n \/ installed n = None) -> install environ = Raise LookupError.
Proof.
  intros F. unfold ModelShim.install. destruct (choose_spec value attr truth installed top_level common_members misplaced_members (preferred environ)) as [_ C].
  rewrite C; [reflexivity|]. intros n b I U. apply usable_known in U. destruct U as [U1 U2]. destruct (F n I) as [X|X]; [exact (X U1)|congruence].
Qed.
(** The order: PyQt5 before PySide2, unless the environment gives names between commas. *)
Theorem C153_order : preferred "" = ["PyQt5"; "PySide2"] /\ preferred "PySide2" = ["PySide2"] /\ preferred "PySide2,,PyQt5" = ["PySide2"; "PyQt5"] /\
  forall e, e <> "" -> ~ In "" (preferred e).
Proof.
  split; [reflexivity|]. split; [reflexivity|]. split; [reflexivity|]. intros e N I. unfold preferred in I. destruct (String.eqb_spec e ""); [congruence|].
  apply filter_In in I. destruct I as [_ I]. discriminate I.
Qed.
(** Versions which cannot be read are not an absence of the binding: the error goes to the user, the other binding is not tried. *)
Theorem C153_version_refuted environ n b e v : is_first (preferred environ) n b -> module_of b "QtCore" = Some v -> b_version b = Raise e ->
  install environ = Raise e.
Proof.
  intros (l1 & l2 & O & K & I & F) M V. unfold ModelShim.install.
  destruct (choose_spec value attr truth installed top_level common_members misplaced_members (preferred environ)) as [C _].
  rewrite (C n b l2); [|exists l1; split; [exact O|]|apply usable_known; auto].
  - unfold ModelShim.initialise. rewrite V. replace (existsb _ _) with true; [reflexivity|]. symmetry. apply get_in. rewrite theirs_setup by reflexivity. congruence.
  - intros k c J U. apply usable_known in U. destruct U as [U1 U2]. destruct (F k J) as [X|X]; [exact (X U1)|congruence].
Qed.

(** A member of the table which the binding has is the one which is imported. *)
Theorem C153_member environ n b s m names x v w : is_first (preferred environ) n b -> b_version b = Ok tt -> install environ = Ok (n, s) ->
  In (m, names) common_members -> In x names -> module_of b m = Some v -> attr v x = Some w -> import s m x = Ok w.
Proof.
  intros F V E I J M A. destruct (install_spec environ n b F V) as (s0 & E0 & E1). rewrite E1 in E. apply pair_ok in E. subst s.
  destruct (initialise_ok n b V) as (s0' & E0' & T & _ & _). rewrite E0 in E0'. apply ok_same in E0'. subst s0'.
  assert (G : get m (theirs s0) = Some v) by (rewrite T, theirs_setup by exact (common_get m names I); exact M).
  pose proof (members_fold value attr common_members common_NoDup s0 m names I x) as S. rewrite G, A in S.
  rewrite (proj2 (mem_in x names) J) in S. apply import_shows. split; [|exact S].
  apply (proj2 (members_loaded value attr common_members s0 m)). right. split; [apply mem_in; exact (common_get m names I)|congruence].
Qed.
(** Nothing else can be imported: a name comes from the table of common members or from that of the members to move. *)
Theorem C153_nothing_else environ n b s m x w : is_first (preferred environ) n b -> b_version b = Ok tt -> install environ = Ok (n, s) ->
  import s m x = Ok w -> (exists names v, In (m, names) common_members /\ In x names /\ module_of b m = Some v /\ attr v x = Some w) \/
  (exists src rest, In (src, (m ++ "." ++ x ++ rest)%string) (misplaced_members n)).
Proof.
  intros F V E P. destruct (install_spec environ n b F V) as (s0 & E0 & E1). rewrite E1 in E. apply pair_ok in E. subst s.
  destruct (initialise_ok n b V) as (s0' & E0' & T & _ & Z). rewrite E0 in E0'. apply ok_same in E0'. subst s0'.
  assert (S : shows value (fold_left (members1 value attr) common_members s0) m x = Some w).
  { apply import_shows in P. exact (proj2 P). }
  assert (D : shows value s0 m x = Some w -> exists src rest, In (src, (m ++ "." ++ x ++ rest)%string) (misplaced_members n)).
  { intros Y. destruct (Exists_dec (fun e => target e m x) (misplaced_members n) (fun e => target_dec e m x)) as [X|X].
    2: { rewrite Z in Y; [discriminate Y|]. intros e I Te. apply X. apply Exists_exists. exists e. auto. }
    apply Exists_exists in X. destruct X as (e & I & l & Te). exists (fst e). unfold misplaced_members in *. destruct (String.eqb n "PySide2").
    all: cbn [In misplaced_pyside2 misplaced_pyqt5] in I.
    all: repeat destruct I as [<- | I]; try contradiction; vm_compute in Te; injection Te as <- <- <-.
    all: try (exists ""; cbn; tauto). all: exists ".instance()"; cbn; tauto. }
  destruct (in_dec string_dec m (map fst common_members)) as [I|I].
  - apply in_map_iff in I. destruct I as ([m' names] & <- & I). cbn [fst] in *.
    pose proof (members_fold value attr common_members common_NoDup s0 m' names I x) as S'. rewrite S in S'. rewrite T, theirs_setup in S' by exact (common_get m' names I).
    destruct (module_of b m') as [v|] eqn:M; [|right; apply D; symmetry; exact S'].
    destruct (existsb (String.eqb x) names) eqn:N; [|right; apply D; symmetry; exact S'].
    destruct (attr v x) as [w'|] eqn:A; [|right; apply D; symmetry; exact S'].
    left. exists names, v. injection S' as ->. repeat split; auto. apply mem_in. exact N.
  - right. apply D. rewrite members_other in S by exact I. exact S.
Qed.

(** *** The members which are moved *)
Local Opaque common_members misplaced_members.
Lemma moved environ n b s l1 src dst l2 m x sm sx v w : is_first (preferred environ) n b -> b_version b = Ok tt -> install environ = Ok (n, s) ->
  misplaced_members n = l1 ++ (src, dst) :: l2 -> target (src, dst) m x -> (forall e', In e' l2 -> ~ target e' m x) ->
  cut "." src = sm :: sx -> existsb (String.eqb sm) (map fst common_members) = true -> existsb (String.eqb m) (map fst common_members) = true ->
  module_of b m <> None -> (forall names v, In (m, names) common_members -> module_of b m = Some v -> In x names -> attr v x = None) ->
  module_of b sm = Some v -> walk value attr v sx = Some w -> import s m x = Ok (if truth w then w else v).
Proof.
  intros F V E L T O S SM M MM C G W. destruct (install_spec environ n b F V) as (s0 & E0 & E1). rewrite E1 in E. apply pair_ok in E. subst s.
  destruct (tables_two n) as [T2 N2]. rewrite L in T2, N2.
  destruct (reassign_last value attr truth common_members l1 (src, dst) l2 (setup b) m x sm sx v w) as (s1 & R & P); try assumption.
  { rewrite theirs_setup by exact SM. exact G. }
  assert (X : s1 = s0).
  { unfold ModelShim.initialise in E0. rewrite V, L, R in E0. destruct (existsb (String.eqb "QtCore") _) in E0; cbn [bind] in E0; apply ok_same in E0; symmetry; exact E0. }
  subst s1. destruct (initialise_ok n b V) as (s0' & E0' & TH & _). rewrite E0 in E0'. apply ok_same in E0'. subst s0'.
  assert (Q : get m (theirs s0) = module_of b m) by (rewrite TH; apply theirs_setup; exact M).
  assert (S1 : shows value (fold_left (members1 value attr) common_members s0) m x = Some (if truth w then w else v)).
  { apply mem_in in M. apply in_map_iff in M. destruct M as ([m' names] & <- & I). cbn [fst] in *.
    rewrite (members_fold value attr common_members common_NoDup s0 m' names I x), Q. destruct (module_of b m') as [u|] eqn:U; [|exact P].
    destruct (existsb (String.eqb x) names) eqn:N; [|exact P]. apply mem_in in N. rewrite (C names u I eq_refl N). exact P. }
  apply import_shows. split; [|exact S1]. apply (proj2 (members_loaded value attr common_members s0 m)). right. split; [apply mem_in; exact M|congruence].
Qed.
Local Transparent common_members misplaced_members.
Lemma not_common m x : (match get m common_members with Some l => existsb (String.eqb x) l | None => false end) = false ->
  forall names, In (m, names) common_members -> ~ In x names.
Proof.
  intros B names I J. assert (G : get m common_members = Some names).
  { revert I. generalize common_NoDup. clear. induction common_members as [|[k y] l IH]; intros D I; [contradiction|]. cbn [get]. cbn [map fst] in D. inversion D; subst.
    destruct I as [E|I]; [injection E as -> ->; rewrite String.eqb_refl; reflexivity|].
    destruct (String.eqb_spec m k) as [->|]; [exfalso; apply (in_map fst) in I; cbn [fst] in I; contradiction|apply IH; assumption]. }
  rewrite G in B. apply mem_in in J. congruence.
Qed.
(** With PyQt5 the properties, signals and slots have the names of PySide2; an object which is false is replaced by the module. *)
Theorem C153_signals_pyqt5 environ b s core w : is_first (preferred environ) "PyQt5" b -> b_version b = Ok tt -> install environ = Ok ("PyQt5", s) ->
  module_of b "QtCore" = Some core ->
  (attr core "pyqtProperty" = Some w -> import s "QtCore" "Property" = Ok (if truth w then w else core)) /\
  (attr core "pyqtSignal" = Some w -> import s "QtCore" "Signal" = Ok (if truth w then w else core)) /\
  (attr core "pyqtSlot" = Some w -> import s "QtCore" "Slot" = Ok (if truth w then w else core)).
Proof.
  intros F V E M. split; [|split]; intros A.
  - refine (moved environ _ b s [] "QtCore.pyqtProperty" "QtCore.Property" _ "QtCore" "Property" "QtCore" ["pyqtProperty"] core w F V E eq_refl _ _ eq_refl eq_refl eq_refl _ _ M _);
      [exists []; reflexivity|intros e' I; repeat destruct I as [<- | I]; try contradiction; intros [l T]; discriminate T|congruence| |cbn [walk]; rewrite A; reflexivity].
    intros names u I _ J. exfalso. exact (not_common "QtCore" "Property" eq_refl names I J).
  - refine (moved environ _ b s [_] "QtCore.pyqtSignal" "QtCore.Signal" _ "QtCore" "Signal" "QtCore" ["pyqtSignal"] core w F V E eq_refl _ _ eq_refl eq_refl eq_refl _ _ M _);
      [exists []; reflexivity|intros e' I; repeat destruct I as [<- | I]; try contradiction; intros [l T]; discriminate T|congruence| |cbn [walk]; rewrite A; reflexivity].
    intros names u I _ J. exfalso. exact (not_common "QtCore" "Signal" eq_refl names I J).
  - refine (moved environ _ b s [_; _] "QtCore.pyqtSlot" "QtCore.Slot" _ "QtCore" "Slot" "QtCore" ["pyqtSlot"] core w F V E eq_refl _ _ eq_refl eq_refl eq_refl _ _ M _);
      [exists []; reflexivity|intros e' I; repeat destruct I as [<- | I]; try contradiction; intros [l T]; discriminate T|congruence| |cbn [walk]; rewrite A; reflexivity].
    intros names u I _ J. exfalso. exact (not_common "QtCore" "Slot" eq_refl names I J).
Qed.
Theorem C153_signals_pyside2 environ b s core w : is_first (preferred environ) "PySide2" b -> b_version b = Ok tt -> install environ = Ok ("PySide2", s) ->
  module_of b "QtCore" = Some core ->
  (attr core "Property" = Some w -> import s "QtCore" "Property" = Ok (if truth w then w else core)) /\
  (attr core "Signal" = Some w -> import s "QtCore" "Signal" = Ok (if truth w then w else core)) /\
  (attr core "Slot" = Some w -> import s "QtCore" "Slot" = Ok (if truth w then w else core)).
Proof.
  intros F V E M. split; [|split]; intros A.
  - refine (moved environ _ b s [_; _] "QtCore.Property" "QtCore.Property" _ "QtCore" "Property" "QtCore" ["Property"] core w F V E eq_refl _ _ eq_refl eq_refl eq_refl _ _ M _);
      [exists []; reflexivity|intros e' I; repeat destruct I as [<- | I]; try contradiction; intros [l T]; discriminate T|congruence| |cbn [walk]; rewrite A; reflexivity].
    intros names u I _ J. exfalso. exact (not_common "QtCore" "Property" eq_refl names I J).
  - refine (moved environ _ b s [_; _; _] "QtCore.Signal" "QtCore.Signal" _ "QtCore" "Signal" "QtCore" ["Signal"] core w F V E eq_refl _ _ eq_refl eq_refl eq_refl _ _ M _);
      [exists []; reflexivity|intros e' I; repeat destruct I as [<- | I]; try contradiction; intros [l T]; discriminate T|congruence| |cbn [walk]; rewrite A; reflexivity].
    intros names u I _ J. exfalso. exact (not_common "QtCore" "Signal" eq_refl names I J).
  - refine (moved environ _ b s [_; _; _; _] "QtCore.Slot" "QtCore.Slot" _ "QtCore" "Slot" "QtCore" ["Slot"] core w F V E eq_refl _ _ eq_refl eq_refl eq_refl _ _ M _);
      [exists []; reflexivity|intros e' I; repeat destruct I as [<- | I]; try contradiction; intros [l T]; discriminate T|congruence| |cbn [walk]; rewrite A; reflexivity].
    intros names u I _ J. exfalso. exact (not_common "QtCore" "Slot" eq_refl names I J).
Qed.
(** qApp, which the table sends to QApplication.instance(), takes the place of QApplication when the binding has none, and has no name of its own. *)
Theorem C153_qapp_refuted environ n b s widgets w : is_first (preferred environ) n b -> b_version b = Ok tt -> install environ = Ok (n, s) ->
  module_of b "QtWidgets" = Some widgets -> attr widgets "qApp" = Some w ->
  (attr widgets "QApplication" = None -> import s "QtWidgets" "QApplication" = Ok (if truth w then w else widgets)) /\
  (forall x, import s "QtWidgets" "qApp" <> Ok x).
Proof.
  intros F V E M A. split.
  - intros Q. assert (K : exists l, misplaced_members n = l ++ [("QtWidgets.qApp", "QtWidgets.QApplication.instance()")]).
    { unfold misplaced_members. destruct (String.eqb n "PySide2"); [exists (removelast misplaced_pyside2)|exists (removelast misplaced_pyqt5)]; reflexivity. }
    destruct K as [l K].
    refine (moved environ _ b s l "QtWidgets.qApp" "QtWidgets.QApplication.instance()" [] "QtWidgets" "QApplication" "QtWidgets" ["qApp"] widgets w F V E K _ _ eq_refl eq_refl eq_refl _ _ M _);
      [exists ["instance()"]; reflexivity|intros e' []|congruence| |cbn [walk]; rewrite A; reflexivity].
    intros names u I U J. rewrite M in U. injection U as <-. exact Q.
  - intros x P. destruct (C153_nothing_else environ n b s "QtWidgets" "qApp" x F V E P) as [(names & v & I & J & _)|(src & rest & I)].
    + exact (not_common "QtWidgets" "qApp" eq_refl names I J).
    + unfold misplaced_members in I. destruct (String.eqb n "PySide2"); cbn [In misplaced_pyside2 misplaced_pyqt5] in I;
        repeat destruct I as [I|I]; try contradiction; discriminate I.
Qed.

(** *** What the application imports: QtApplication/QmlApplication.py 43-51, GraphicEngine/Painter/QtPainter.py 34-40 and 131 *)
Definition wanted : list (string * string) := [
  ("QtCore", "QObject"); ("QtCore", "Qt"); ("QtCore", "QTimer"); ("QtCore", "QUrl"); ("QtCore", "QRectF"); ("QtCore", "QSize"); ("QtCore", "QSizeF"); ("QtCore", "QPointF");
  ("QtGui", "QGuiApplication"); ("QtGui", "QIcon"); ("QtGui", "QColor"); ("QtGui", "QFont"); ("QtGui", "QFontMetrics"); ("QtGui", "QImage"); ("QtGui", "QPainter");
  ("QtGui", "QPainterPath"); ("QtGui", "QBrush"); ("QtGui", "QPen"); ("QtQml", "qmlRegisterType"); ("QtQml", "QQmlApplicationEngine");
  ("QtQml", "qmlRegisterUncreatableType"); ("QtQuick", "QQuickPaintedItem"); ("QtQuick", "QQuickView"); ("QtSvg", "QSvgGenerator")].
(** They are all those of the binding, which may have more of them than the table, not less. *)
Theorem C153_application environ n b s : is_first (preferred environ) n b -> b_version b = Ok tt -> install environ = Ok (n, s) ->
  Forall (fun e => forall v w, module_of b (fst e) = Some v -> attr v (snd e) = Some w -> import s (fst e) (snd e) = Ok w) wanted.
Proof.
  intros F V E. apply Forall_forall. intros [m x] I v w M A. cbn [fst snd] in *.
  assert (X : exists names, In (m, names) common_members /\ In x names).
  { assert (B : forallb (fun e => match get (fst e) common_members with Some l => existsb (String.eqb (snd e)) l | None => false end) wanted = true) by (vm_compute; reflexivity).
    rewrite forallb_forall in B. specialize (B _ I). cbn [fst snd] in B. destruct (get m common_members) as [l|] eqn:G; [|discriminate B]. exists l.
    split; [|apply mem_in; exact B]. revert G. clear. induction common_members as [|[k y] t IH]; intros G; [discriminate G|]. cbn [get] in G.
    destruct (String.eqb_spec m k) as [->|]; [injection G as ->; left; reflexivity|right; apply IH; exact G]. }
  destruct X as (names & I' & J). exact (C153_member environ n b s m names x v w F V E I' J M A).
Qed.
End Bindings.

(** *** A case: objects are texts; PyQt5 is absent and PySide2 has two modules; the signals of the second case are false. *)
Definition case_attr (v x : string) : option string :=
  if String.eqb v "core" then (if existsb (String.eqb x) ["QObject"; "Signal"; "pyqtSignal"; "Other"] then Some ("core." ++ x)%string else None)
  else if String.eqb v "widgets" then (if String.eqb x "qApp" then Some "the application" else None) else None.
Definition case_binding : binding string :=
  Binding (fun m => if String.eqb m "QtCore" then Some "core" else if String.eqb m "QtWidgets" then Some "widgets" else None) (Ok tt).
Definition case_installed (n : string) : option (binding string) := if String.eqb n "PySide2" then Some case_binding else None.
Definition case_install truth inst environ := install string case_attr truth inst (fun _ => None) common_members misplaced_members environ.
Definition ask (r : result (string * shim string)) (m x : string) : result string := (c <- r ;; import (snd c) m x).
Example C153_case :
  let r := case_install (fun _ => true) case_installed "" in
  is_first string case_installed (preferred "") "PySide2" case_binding /\ (exists s, r = Ok ("PySide2", s) /\ public s = ["QtCore"; "QtWidgets"]) /\
  ask r "QtCore" "QObject" = Ok "core.QObject" /\ ask r "QtCore" "Signal" = Ok "core.Signal" /\ ask r "QtCore" "Other" = Raise LookupError /\
  ask r "QtWidgets" "QApplication" = Ok "the application" /\ ask r "QtGui" "QIcon" = Raise LookupError /\
  case_install (fun _ => true) case_installed "PyQt5" = Raise LookupError /\
  ask (case_install (fun v => negb (String.eqb v "core.pyqtSignal")) (fun n => Some case_binding) "PyQt4,PyQt5") "QtCore" "Signal" = Ok "core".
Proof.
  cbv zeta. split.
  { exists ["PyQt5"], []. split; [reflexivity|]. split; [left; reflexivity|]. split; [reflexivity|]. intros k [<- | []]. right. reflexivity. }
  split; [eexists; split; vm_compute; reflexivity|]. repeat split; vm_compute; reflexivity.
Qed.
Print Assumptions C153_choice.
Print Assumptions C153_none.
Print Assumptions C153_order.
Print Assumptions C153_version_refuted.
Print Assumptions C153_member.
Print Assumptions C153_nothing_else.
Print Assumptions C153_signals_pyqt5.
Print Assumptions C153_signals_pyside2.
Print Assumptions C153_qapp_refuted.
Print Assumptions C153_application.
