(** Properties C150 and C151: what is known of the platform; the configuration of the messages. *)
From Coq Require Import String Ascii List Bool Arith ZArith Lia.
From Verif Require Import Base ModelFormula ModelFiles ModelYaml ModelPlatform SpecFiles SpecPlatform ProofFiles ProofPlatform PropFiles.
From Verif Require ModelXml.
Import ListNotations.
Local Open Scope string_scope.
Local Open Scope list_scope.

Definition eol : text := [ascii_of_nat 10].

(** ** C150 *)
(** One core for each paragraph of the file, if each has exactly one line which mentions a processor. *)
Theorem C150_cores_partial : forall number_of_processors paragraphs,
  Forall (fun lines => exists before line after, lines = before ++ line :: after /\ mentions (lit "processor") line /\
    Forall (fun l => ~ mentions (lit "processor") l) (before ++ after)) paragraphs ->
  get_number_of_cores (concat paragraphs) number_of_processors Linux = Ok (Some (Z.of_nat (length paragraphs))).
Proof.
  intros n ps F. unfold get_number_of_cores. do 3 f_equal.
  assert (N : forall l, Forall (fun l => ~ mentions (lit "processor") l) l -> filter (is_in (lit "processor")) l = []).
  { induction 1 as [|x l X G IH]; [reflexivity|]. cbn [filter]. rewrite is_in_not by exact X. exact IH. }
  induction F as [|lines ps (b & l & a & -> & M & G) F IH]; [reflexivity|]. cbn [concat]. rewrite filter_app, app_length, IH, filter_app.
  apply Forall_app in G as [G1 G2]. cbn [filter]. apply is_in_iff in M. rewrite M, !N by assumption. reflexivity.
Qed.
Print Assumptions C150_cores_partial.
(** Any other line which has the word counts too. *)
Theorem C150_cores_refuted : forall number_of_processors, get_number_of_cores
  [lit "processor : 0" ++ eol; lit "model name : Virtual processor" ++ eol] number_of_processors Linux = Ok (Some 2%Z).
Proof. intros. vm_compute. reflexivity. Qed.
Print Assumptions C150_cores_refuted.
(** The name of the processor is the value of the first line which mentions one, up to a colon. *)
Theorem C150_cpu_partial : forall before key a name b after, Forall (fun l => ~ mentions (lit "model name") l) before -> mentions (lit "model name") key ->
  ~ In ":"%char key -> ~ In ":"%char name -> blank a -> blank b -> trimmed name ->
  get_cpu (before ++ (key ++ ":"%char :: a ++ name ++ b) :: after) Linux = Ok (Some name).
Proof.
  intros before key a name b after F M K N A B T. unfold get_cpu. rewrite first_some; [|exact F|].
  - rewrite second_of; [cbn [bind]; rewrite strip_around by assumption; reflexivity|exact K|].
    assert (C : forall s, blank s -> ~ In ":"%char s) by (intros s S H; specialize (S _ H); discriminate S).
    rewrite !in_app_iff. intros [H|[H|H]]; [exact (C a A H)|exact (N H)|exact (C b B H)].
  - destruct M as (x & y & ->). exists x, (y ++ ":"%char :: a ++ name ++ b). rewrite <- !app_assoc. reflexivity.
Qed.
Print Assumptions C150_cpu_partial.
Theorem C150_cpu_refuted : get_cpu [lit "model name : ACME: fast" ++ eol] Linux = Ok (Some (lit "ACME")).
Proof. vm_compute. reflexivity. Qed.
Print Assumptions C150_cpu_refuted.
(** The size of the memory is read. *)
Theorem C150_memory : forall before key a n after, Forall (fun l => ~ mentions (lit "MemTotal") l) before -> mentions (lit "MemTotal") key ->
  ~ In ":"%char key -> blank a ->
  get_memory_size_kb (before ++ (key ++ ":"%char :: a ++ ModelXml.int_str n ++ lit " kB" ++ eol) :: after) Linux = Ok (Some n).
Proof.
  intros before key a n after F M K A. unfold get_memory_size_kb. rewrite first_some; [|exact F|].
  - assert (C : ~ In ":"%char (a ++ ModelXml.int_str n ++ lit " kB" ++ eol)).
    { rewrite !in_app_iff. intros [H|[H|[H|H]]].
      - specialize (A _ H). discriminate A.
      - assert (Q : forall m, In ":"%char (ModelXml.nat_str m) -> False).
        { intros m H'. destruct (ProofXml.nat_str_ok m) as (_ & G & _). rewrite Forall_forall in G. specialize (G _ H'). apply ProofXml.digit_range in G. cbn in G. lia. }
        destruct n as [|p|p]; cbn [ModelXml.int_str] in H; [destruct H as [H|[]]; discriminate|exact (Q _ H)|].
        apply in_app_or in H. destruct H as [[H|[]]|H]; [discriminate|exact (Q _ H)].
      - cbn in H. repeat (destruct H as [H|H]; [discriminate|]). exact H.
      - cbn in H. destruct H as [H|[]]. discriminate. }
    rewrite second_of by assumption. cbn [bind].
    replace (a ++ ModelXml.int_str n ++ lit " kB" ++ eol) with ((a ++ ModelXml.int_str n ++ lit " ") ++ (lit "kB" ++ eol)) by (rewrite <- !app_assoc; reflexivity).
    rewrite app_length. change (length (lit "kB" ++ eol)) with 3. rewrite Nat.add_sub, firstn_app, Nat.sub_diag, firstn_all. cbn [firstn]. rewrite app_nil_r.
    rewrite int_parse_around; [reflexivity|exact A|]. intros c [<-|[]]. reflexivity.
  - destruct M as (x & y & ->). exists x, (y ++ ":"%char :: a ++ ModelXml.int_str n ++ lit " kB" ++ eol). rewrite <- !app_assoc. reflexivity.
Qed.
Print Assumptions C150_memory.
(** The platform is described on Linux as soon as the three lines are there, with the frequency and the memory in larger units. *)
Theorem C150_described_partial : forall cpuinfo meminfo processors khz name k n os_name, os_name <> lit "nt" ->
  get_cpu cpuinfo Linux = Ok name -> get_cpu_khz cpuinfo khz Linux = Ok (Some k) -> get_memory_size_kb meminfo Linux = Ok (Some n) -> (0 <= k)%Z -> (0 <= n)%Z ->
  exists p, new_platform cpuinfo meminfo processors khz os_name (lit "linux") = Ok p /\ pf_os p = Linux /\ pf_cpu p = name /\ pf_khz p = Some k /\ pf_kb p = Some n /\
    (1000 * pf_mhz p <= k < 1000 * pf_mhz p + 1000)%Z /\ (1024 * pf_mb p <= n < 1024 * pf_mb p + 1024)%Z.
Proof.
  intros cpuinfo meminfo processors khz name k n os_name N C K M PK PN. unfold new_platform, get_os. rewrite text_eqb_neq by exact N. rewrite text_eqb_refl. cbn [bind].
  rewrite C, K, M. cbn [bind quotient get_number_of_cores]. eexists. split; [reflexivity|]. cbn [pf_os pf_cpu pf_khz pf_kb pf_mhz pf_mb].
  repeat split; try reflexivity; rewrite Z.quot_div_nonneg by lia;
    try (pose proof (Z.div_mod k 1000 ltac:(lia)); pose proof (Z.mod_pos_bound k 1000 ltac:(lia)); lia);
    pose proof (Z.div_mod n 1024 ltac:(lia)); pose proof (Z.mod_pos_bound n 1024 ltac:(lia)); lia.
Qed.
Print Assumptions C150_described_partial.
(** Without the line of the frequency, which many processors do not give, there is an error. *)
Theorem C150_frequency_refuted : forall cpuinfo meminfo processors khz, Forall (fun l => ~ mentions (lit "cpu MHz") l) cpuinfo ->
  exists e, new_platform cpuinfo meminfo processors khz (lit "posix") (lit "linux") = Raise e /\ (is_ok (get_cpu cpuinfo Linux) -> e = TypeError).
Proof.
  intros cpuinfo meminfo processors khz F. unfold new_platform. change (get_os (lit "posix") (lit "linux")) with (Ok Linux). cbn [bind].
  assert (K : get_cpu_khz cpuinfo khz Linux = Ok None) by (unfold get_cpu_khz; rewrite first_none by exact F; reflexivity).
  destruct (get_cpu cpuinfo Linux) as [c|e]; cbn [bind].
  - rewrite K. cbn. eexists. split; [reflexivity|reflexivity].
  - exists e. split; [reflexivity|]. intros [a A]. discriminate.
Qed.
Print Assumptions C150_frequency_refuted.
(** And there is one on every other system. *)
Theorem C150_systems_refuted : forall cpuinfo meminfo processors khz os_name sys_platform, os_name = lit "nt" \/ sys_platform <> lit "linux" ->
  new_platform cpuinfo meminfo processors khz os_name sys_platform = Raise NotImplementedError.
Proof.
  intros cpuinfo meminfo processors khz o s H. unfold new_platform, get_os. destruct (text_eqb o (lit "nt")) eqn:E; [reflexivity|].
  destruct H as [->|H]; [rewrite text_eqb_refl in E; discriminate|]. rewrite text_eqb_neq by exact H. reflexivity.
Qed.
Print Assumptions C150_systems_refuted.
Example C150_case : let cpuinfo := [lit "processor : 0" ++ eol; lit "model name : ACME 3000" ++ eol; lit "cpu MHz : 2893.202" ++ eol; eol; lit "processor : 1" ++ eol] in
  exists p, new_platform cpuinfo [lit "MemTotal:       16384256 kB" ++ eol] (Raise TypeError) (fun _ => Ok 2893202%Z) (lit "posix") (lit "linux") = Ok p /\
  p = Platform_ Linux (Some (lit "ACME 3000")) (Some 2%Z) (Some 2893202%Z) 2893 (Some 16384256%Z) 16000.
Proof. eexists. split; [vm_compute; reflexivity|]. vm_compute. reflexivity. Qed.

(** ** C151 *)
Section Numbers.
Variable number : Type.
Notation yaml := (ModelYaml.yaml number).
(** Of the configuration, the formatter of the console becomes the one of the system; on Linux the escapes of its text are replaced; nothing
    else changes. *)
Theorem C151_prepared : forall os (config config' : yaml), prepare (Some os) config = Ok config' ->
  inner config' "handlers" "console" "formatter" = Ok (YText (match os with Windows => lit "simple" | _ => lit "ansi" end)) /\
  (os = Linux -> exists t t', inner config "formatters" "ansi" "format" = Ok (YText t) /\ inner config' "formatters" "ansi" "format" = Ok (YText t') /\
     replaced (lit "<ESC>") [ascii_of_nat 27] t t') /\
  (forall a b c, (a, b, c) <> ("handlers", "console", "formatter") -> (os = Linux -> (a, b, c) <> ("formatters", "ansi", "format")) ->
     inner config' a b c = inner config a b c).
Proof.
  intros os config config' H. unfold prepare in H. destruct os; cbn [on bind] in H.
  - destruct (inner config "formatters" "ansi" "format") as [[| |t| |]|] eqn:I; cbn [bind] in H; try discriminate.
    destruct (set_inner config "formatters" "ansi" "format" _) as [c1|] eqn:S; [|discriminate]. cbn [bind] in H.
    apply set_inner_ok in S as [S1 S2]. apply set_inner_ok in H as [H1 H2]. split; [exact H1|]. split.
    + intros _. exists t. eexists. split; [reflexivity|]. split; [rewrite H2 by congruence; exact S1|]. apply replace_replaced. discriminate.
    + intros a b c N1 N2. rewrite H2 by exact N1. apply S2. apply N2. reflexivity.
  - apply set_inner_ok in H as [H1 H2]. split; [exact H1|]. split; [discriminate|]. intros a b c N _. apply H2. exact N.
  - apply set_inner_ok in H as [H1 H2]. split; [exact H1|]. split; [discriminate|]. intros a b c N _. apply H2. exact N.
Qed.
(** On the third system the formatter is the one with escapes, and they stay. *)
Theorem C151_osx_refuted : forall config config' : yaml, prepare (os_factory (lit "darwin")) config = Ok config' ->
  inner config' "handlers" "console" "formatter" = Ok (YText (lit "ansi")) /\
  inner config' "formatters" "ansi" "format" = inner config "formatters" "ansi" "format".
Proof.
  intros config config' H. change (os_factory (lit "darwin")) with (Some OSX) in H. destruct (C151_prepared OSX config config' H) as (A & _ & B).
  split; [exact A|]. apply B; discriminate.
Qed.
(** Elsewhere the messages cannot be set up. *)
Theorem C151_systems_refuted : forall s (config : yaml), (forall p, In p [lit "linux"; lit "win"; lit "darwin"] -> forall r, s <> p ++ r) ->
  prepare (os_factory s) config = Raise AttributeError.
Proof.
  intros s config H. assert (N : forall p, In p [lit "linux"; lit "win"; lit "darwin"] -> starts p s = false).
  { intros p P. destruct (starts p s) eqn:E; [|reflexivity]. apply starts_iff in E as [r E]. destruct (H p P r E). }
  unfold os_factory. rewrite !N by (cbn; tauto). reflexivity.
Qed.
(** The level is the one of the environment when it names an integer of the module; any other name is an error. *)
Theorem C151_level : forall logging_module level_names environ default z,
  logger_level logging_module level_names environ default = Ok z <->
  (environ = None /\ z = default) \/
  exists name, environ = Some name /\ (logging_module name = Some (AInt z) \/ exists t, logging_module name = Some (AText t) /\ level_names t = Some z).
Proof.
  intros m ln environ default z. unfold logger_level, set_level. destruct environ as [name|].
  - split.
    + intros H. right. exists name. split; [reflexivity|]. destruct (m name) as [[y|t|]|]; try discriminate; [left; congruence|].
      right. exists t. split; [reflexivity|]. destruct (ln t); congruence.
    + intros [[H _]|(n & H & K)]; [discriminate|]. injection H as ->. destruct K as [K|(t & K & L)]; rewrite K; [reflexivity|rewrite L; reflexivity].
  - split; [intros H; left; split; congruence|]. intros [[_ ->]|(n & H & _)]; [reflexivity|discriminate].
Qed.
(** So the whole set up fails when the variable holds no name of a level. *)
Theorem C151_level_refuted : forall logging_module level_names s here root directory file load dict_config name default (r : yaml * Z),
  logging_module name = None \/ logging_module name = Some AOther ->
  setup_logging number logging_module level_names s here root directory file load dict_config (Some name) default <> Ok r.
Proof.
  intros m ln s here root directory file load dict name default r H. unfold setup_logging.
  destruct (logging_find here root directory file) as [p|]; cbn [bind]; [|discriminate]. destruct (load p) as [c|]; cbn [bind]; [|discriminate].
  destruct (prepare (os_factory s) c) as [c'|]; cbn [bind]; [|discriminate]. destruct (dict c') as [u|]; cbn [bind]; [|discriminate].
  unfold logger_level, set_level. destruct H as [-> | ->]; discriminate.
Qed.
(** The file of the configuration is the one of the directory of the configuration. *)
Theorem C151_file : forall here root directory file place l, tree root -> resolve here root directory = Some place -> at_place root place = Some (Dir l) ->
  In (file, File) l -> exists p, logging_find here root directory file = Ok p /\ resolve here root p = Some (file :: place).
Proof.
  intros here root directory file place l W R A I. unfold logging_find.
  destruct (ModelFiles.find here root (Chars false file) (Several [Chars false directory])) as [p|e] eqn:E.
  - destruct (C148_found here root _ _ _ W E) as (l1 & d & l2 & pl & x & names & L & _ & P & X & D & RP & _ & _ & T).
    destruct l1 as [|y l1]; [|destruct l1; discriminate L]. injection L as <- <-. cbn [characters] in *. rewrite R in P. injection P as <-. rewrite A in X. injection X as <-.
    exists p. split; [reflexivity|]. rewrite T in RP; [exact RP|]. econstructor; [exact I|constructor].
  - exfalso. apply C148_missing in E as [_ E]. apply (E (Chars false directory) (Dir l) []); [left; reflexivity|reflexivity| |].
    + unfold lookup. cbn [characters]. rewrite R. exact A.
    + econstructor; [exact I|constructor].
Qed.
(** logging.yml *)
Definition configuration (version : number) : yaml := YMap
  [(KText (lit "version"), YNum version);
   (KText (lit "formatters"), YMap
      [(KText (lit "simple"), YMap [(KText (lit "format"), YText (lit "%(asctime)s - %(name)s - %(module)s.%(levelname)s - %(message)s"))]);
       (KText (lit "ansi"), YMap [(KText (lit "format"), YText (lit "<ESC>[1;32m%(asctime)s<ESC>[0m - <ESC>[1;34m%(name)s.%(funcName)s<ESC>[0m - <ESC>[1;31m%(levelname)s<ESC>[0m - %(message)s"))])]);
   (KText (lit "handlers"), YMap [(KText (lit "console"), YMap
      [(KText (lit "class"), YText (lit "logging.StreamHandler")); (KText (lit "level"), YText (lit "INFO")); (KText (lit "stream"), YText (lit "ext://sys.stdout"))])]);
   (KText (lit "root"), YMap [(KText (lit "level"), YText (lit "DEBUG")); (KText (lit "handlers"), YList [YText (lit "console")])])].
(** It can be used on each of the three systems, and the formatter which is chosen is there. *)
Example C151_case : forall version os, exists config' f t, prepare (Some os) (configuration version) = Ok config' /\
  inner config' "handlers" "console" "formatter" = Ok (YText (lit f)) /\ inner config' "formatters" f "format" = Ok (YText t).
Proof.
  intros version os. destruct os; eexists; [exists "ansi"|exists "simple"|exists "ansi"]; eexists;
    (split; [vm_compute; reflexivity|]); (split; vm_compute; reflexivity).
Qed.
End Numbers.
Print Assumptions C151_prepared.
Print Assumptions C151_osx_refuted.
Print Assumptions C151_systems_refuted.
Print Assumptions C151_level.
Print Assumptions C151_level_refuted.
Print Assumptions C151_file.
