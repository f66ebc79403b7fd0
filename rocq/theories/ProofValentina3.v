(** Reading the calculations of a piece. *)
From Coq Require Import String Ascii List Bool Arith ZArith Lia.
From Verif Require Import Base ModelFormula ModelMeasure ModelGraph SpecGraph GlueGraph ProofGraph ModelCounter ModelSketch ProofSketch ProofSketch2 ProofSketch3 ProofSketch4.
From Verif Require ModelXml ModelColor ModelStyle.
From Verif Require Import ModelValentina SpecValentina ProofValentina ProofValentina2.
Import ModelColor(color, database).
Import ListNotations.

(** ** Adding an operation whose points are known *)
Definition found (s : sketch) (z : Z) (j : nat) : Prop := assoc key_eqb (KeyId z) (op_dict s) = Some j.
Lemma found_op s z j : invariant s -> found s z j -> exists p, nth_error (ops s) j = Some p /\ o_id p = z.
Proof. intros I F. exact (st_key _ (proj1 I) _ _ F). Qed.
Lemma found_id s j p : invariant s -> nth_error (ops s) j = Some p -> found s (o_id p) j.
Proof. intros I P. exact (st_id _ (proj1 I) _ _ P). Qed.
Lemma resolve_found zs : forall js s, Forall2 (found s) zs js -> fst (resolve_all (map RId zs) s) = Ok js.
Proof.
  induction zs as [|z zs IH]; intros js s F; inversion F as [|? j ? js' Fz Fs]; subst; [reflexivity|].
  cbn [map resolve_all]. unfold then_, resolve. unfold get_operation. unfold found in Fz. rewrite Fz.
  specialize (IH js' s Fs). pose proof (resolve_all_state (map RId zs) s) as E. destruct (resolve_all (map RId zs) s) as [[t|e] s1]; cbn in IH, E |- *; [|discriminate].
  injection IH as ->. reflexivity.
Qed.
Lemma connect_succeeds s n l : invariant s -> newest s n -> (forall j, In j l -> j < length (ops s)) -> fst (connect_all n l s) = Ok tt.
Proof.
  intros I [N1 N2] H. destruct (dy_graph _ (proj2 I)) as (a & R & Ia & Ea & Eb).
  assert (Hn : exists_node a n) by (unfold exists_node; rewrite <- (heap_len _ _ R); exact N1).
  destruct (connect_all_ok n l s a R Hn (fun j o H => node_exists s j o a I R H)) as (g & b & E & _). rewrite E. cbn [fst].
  replace (forallb _ l) with true; [reflexivity|]. symmetry. apply forallb_forall. intros j J. apply Nat.ltb_lt, H, J.
Qed.
Lemma groups_found n : forall gs js m s, invariant s -> newest s n -> ancestors_are s n m -> Forall2 (Forall2 (found s)) gs js ->
  fst (resolve_groups n (map (map RId) gs) s) = Ok (concat js).
Proof.
  induction gs as [|zs gs IH]; intros js m s I N A F; inversion F as [|? j ? js' Fz Fs]; subst; [reflexivity|].
  cbn [map resolve_groups concat]. unfold then_.
  pose proof (resolve_found zs j s Fz) as E1. pose proof (resolve_all_state (map RId zs) s) as E2.
  destruct (resolve_all (map RId zs) s) as [[r|e] s1]; cbn in E1, E2; [|discriminate]. injection E1 as ->. subst s1.
  assert (B : forall k, In k j -> k < length (ops s)).
  { intros k K. assert (X : exists z, found s z k).
    { clear - Fz K. induction Fz as [|z j0 zs js0 Z _ IHz]; [destruct K|]. destruct K as [<-|K]; [exists z; exact Z|exact (IHz K)]. }
    destruct X as (z & X). destruct (found_op s z k I X) as (p & P & _). apply nth_error_Some. rewrite P. discriminate. }
  destruct (connect_new s n j m I N A) as (g & C1 & C2 & C3 & C4). pose proof (connect_succeeds s n j I N B) as C0.
  destruct (connect_all n j s) as [[u|e] s1]; cbn in C0, C1, C4; [|discriminate]. injection C0 as ->. subst s1.
  destruct (C4 eq_refl) as [C5 _].
  pose proof (IH js' (m ++ j) (set_dag g s) C2 C3 C5 Fs) as E. destruct (resolve_groups n (map (map RId) gs) (set_dag g s)) as [[t|e] s1]; cbn in E |- *; [|discriminate].
  injection E as ->. reflexivity.
Qed.
Lemma groups_ops n : forall l s, ops (snd (resolve_groups n l s)) = ops s /\ op_dict (snd (resolve_groups n l s)) = op_dict s /\ counter (snd (resolve_groups n l s)) = counter s.
Proof.
  assert (Cn : forall l s, ops (snd (connect_all n l s)) = ops s /\ op_dict (snd (connect_all n l s)) = op_dict s /\ counter (snd (connect_all n l s)) = counter s).
  { induction l as [|i l IH]; intro s; [repeat split; reflexivity|]. cbn [connect_all].
    destruct (nth_error (ops s) i); [|repeat split; reflexivity]. destruct (connect_ancestor _ _ _) as [g|e]; [|repeat split; reflexivity].
    destruct (IH (set_dag g s)) as (A & B & C). rewrite A, B, C. repeat split; reflexivity. }
  induction l as [|q l IH]; intro s; [repeat split; reflexivity|]. cbn [resolve_groups]. unfold then_.
  pose proof (resolve_all_state q s) as E. destruct (resolve_all q s) as [[r|e] s1]; cbn in E; subst s1; [|repeat split; reflexivity].
  pose proof (Cn r s) as C. destruct (connect_all n r s) as [[u|e] s1]; cbn in C; [|exact C]. destruct C as (C1 & C2 & C3).
  pose proof (IH s1) as D. destruct (resolve_groups n l s1) as [[t|e] s2]; cbn in D |- *; destruct D as (D1 & D2 & D3); repeat split; congruence.
Qed.

Lemma add_known k name gs exprs id js s : invariant s -> well_formed (Args k name (map (map RId) gs) exprs) = true -> (counter s < id)%Z ->
  Forall2 (Forall2 (found s)) gs js ->
  exists o, fst (add_op (Args k name (map (map RId) gs) exprs) (Some id) s) = Ok (length (ops s)) /\
    let s' := snd (add_op (Args k name (map (map RId) gs) exprs) (Some id) s) in
    ops s' = ops s ++ [o] /\ counter s' = id /\
    o_kind o = k /\ o_id o = id /\ o_name o = name /\ o_refs o = concat js /\ map x_source (o_exprs o) = exprs.
Proof.
  intros I W Lt F. unfold add_op. rewrite W. cbn [negb]. unfold new_object, counter_set.
  destruct (Z.leb_spec id (counter s)) as [B|_]; [lia|]. cbn [a_groups a_kind a_name a_exprs].
  assert (I1 : invariant (set_counter id s)) by (apply counter_invariant; [lia|exact I]). set (s1 := set_counter id s) in *.
  destruct (node_invariant s1 I1) as (g & En & I2 & N2 & A2). rewrite En. set (n := length (g_heap (dag s1))) in *. set (s2 := set_dag g s1) in *.
  pose proof (groups_found n gs js [] s2 I2 N2 A2 F) as G. pose proof (groups_ops n (map (map RId) gs) s2) as (G1 & G2 & G3).
  unfold then_. destruct (resolve_groups n (map (map RId) gs) s2) as [[r|e] s3]; cbn in G, G1, G2, G3; [|discriminate]. injection G as ->.
  cbn [look modify returns fst snd]. unfold look, modify, returns. cbn [fst snd]. eexists. split; [rewrite G1; reflexivity|].
  cbn [set_dict set_ops ops counter]. split; [rewrite G1; reflexivity|]. split; [exact G3|]. cbn. repeat (split; [reflexivity|]).
  rewrite map_map. apply map_id.
Qed.

Section Pieces.
Context {float : Type} (float_str : float -> text) (float_parse : text -> result float) (db : database) (black : color)
  (parse : text -> expr).
Notation says := (says float_parse db).
Notation description := (@description float).
Notation state := (state float).
Notation read := (read float float_str float_parse db black parse).
Notation read_all := (read_all float float_str float_parse db black parse).
Notation is_operation := (is_operation parse).
Notation readable := (readable float_parse db).

Definition split_points (k : kind) (l : list Z) : list (list Z) :=
  match k with KContact => [firstn 2 l; skipn 2 l] | KOperation | KPoint | KSingle => [] | _ => [l] end.
Lemma groups_split k l : groups_of k (map RId l) = map (map RId) (split_points k l).
Proof. destruct k; try reflexivity. cbn [groups_of split_points map]. rewrite firstn_map, skipn_map. reflexivity. Qed.

Lemma says_well_formed e d : says e d -> well_formed (made parse d) = true /\ concat (split_points (d_kind d) (d_points d)) = d_points d.
Proof.
  intro Hs. pose proof (s_tag _ _ _ _ Hs) as T. pose proof (s_points _ _ _ _ Hs) as P. pose proof (s_formulas _ _ _ _ Hs) as Q.
  unfold made. destruct d as [k id name pts fml mx my style col]. cbn [d_kind d_points d_formulas d_id d_name] in *. clear Hs.
  destruct k; cbn [spelled] in T; try contradiction; cbn [point_attributes formula_attributes] in P, Q;
  repeat match goal with
  | H : Forall2 _ (_ :: _) _ |- _ => inversion H; clear H; subst
  | H : Forall2 _ [] _ |- _ => inversion H; clear H; subst
  end; split; reflexivity.
Qed.

Lemma nth_keep {A} (l : list A) x i y : nth_error l i = Some y -> nth_error (l ++ [x]) i = Some y.
Proof. intro H. rewrite nth_error_app1; [exact H|]. apply nth_error_Some. rewrite H. discriminate. Qed.
Lemma nth_last {A} (l : list A) x : nth_error (l ++ [x]) (length l) = Some x.
Proof. rewrite nth_error_app2 by lia. rewrite Nat.sub_diag. reflexivity. Qed.
Definition known_in (s : sketch) (z : Z) : Prop := exists j p, nth_error (ops s) j = Some p /\ o_id p = z.

Lemma Forall2_split {A B} (R : A -> B -> Prop) l m n : Forall2 R l m -> Forall2 R (firstn n l) (firstn n m) /\ Forall2 R (skipn n l) (skipn n m).
Proof.
  intro F. revert n. induction F as [|a b l m H F IH]; intros [|n]; cbn; try (split; constructor; assumption).
  destruct (IH n) as [P Q]. split; [constructor; assumption|exact Q].
Qed.
Lemma read_known e d st : invariant (st_sketch _ st) -> length (st_extra _ st) = length (ops (st_sketch _ st)) ->
  says e d -> (counter (st_sketch _ st) < d_id d)%Z -> (forall z, In z (d_points d) -> known_in (st_sketch _ st) z) ->
  exists st', read e st = (Ok (Some (length (ops (st_sketch _ st)))), st') /\ invariant (st_sketch _ st') /\
    length (st_extra _ st') = length (ops (st_sketch _ st')) /\ counter (st_sketch _ st') = d_id d /\
    length (ops (st_sketch _ st')) = S (length (ops (st_sketch _ st))) /\
    is_operation st' (length (ops (st_sketch _ st))) d /\
    (forall i d', is_operation st i d' -> is_operation st' i d') /\
    (forall z, known_in (st_sketch _ st) z -> known_in (st_sketch _ st') z).
Proof.
  intros I Le Hs Lt Kn. destruct (says_well_formed e d Hs) as [W Cc]. rewrite (read_says float_str float_parse db black parse e d st Hs).
  assert (Fj : exists js, Forall2 (found (st_sketch _ st)) (d_points d) js).
  { clear - I Kn. revert Kn. generalize (d_points d) as l. induction l as [|z l IH]; intro H; [exists []; constructor|].
    destruct (H z (or_introl eq_refl)) as (j & p & P & <-). destruct (IH (fun y Y => H y (or_intror Y))) as (js & F).
    exists (j :: js). constructor; [exact (found_id _ _ _ I P)|exact F]. }
  destruct Fj as (js & Fj).
  assert (Fg : exists gs, Forall2 (Forall2 (found (st_sketch _ st))) (split_points (d_kind d) (d_points d)) gs /\ concat gs = js).
  { assert (C1 : forall l m, Forall2 (found (st_sketch _ st)) l m -> Forall2 (Forall2 (found (st_sketch _ st))) [l] [m] /\ concat [m] = m).
    { intros l m F. split; [constructor; [exact F|constructor]|cbn; apply app_nil_r]. }
    destruct (d_kind d) eqn:K; cbn [split_points] in *;
      try (exists [js]; apply C1; exact Fj);
      try (cbn in Cc; rewrite <- Cc in Fj; inversion Fj; subst; exists []; split; [constructor|reflexivity]).
    destruct (Forall2_split _ _ _ 2 Fj) as [P Q]. exists [firstn 2 js; skipn 2 js]. split; [constructor; [exact P|constructor; [exact Q|constructor]]|].
    cbn [concat]. rewrite app_nil_r. apply firstn_skipn. }
  destruct Fg as (gs & Fg & Eg). unfold made in *. rewrite groups_split in *.
  destruct (add_known _ _ _ _ _ _ _ I W Lt Fg) as (o & E & Eo & Ec & K1 & K2 & K3 & K4 & K5).
  pose proof (add_op_ok (Args (d_kind d) (string_of_list_ascii (d_name d)) (map (map RId) (split_points (d_kind d) (d_points d))) (map parse (d_formulas d))) (Some (d_id d)) (st_sketch _ st) I) as (I' & _).
  destruct (add_op (Args (d_kind d) (string_of_list_ascii (d_name d)) (map (map RId) (split_points (d_kind d) (d_points d))) (map parse (d_formulas d))) (Some (d_id d)) (st_sketch _ st)) as [[i|x] s'];
    cbn [fst snd] in *; [|discriminate]. injection E as ->.
  exists (State _ s' (st_extra _ st ++ [extra_of d])). split; [reflexivity|]. cbn [st_sketch st_extra]. split; [exact I'|].
  split; [rewrite Eo, !app_length, Le; reflexivity|]. split; [exact Ec|]. split; [rewrite Eo, app_length; cbn; lia|].
  assert (Nx : forall j p, nth_error (ops (st_sketch _ st)) j = Some p -> nth_error (ops s') j = Some p) by (intros j p P; rewrite Eo; apply nth_keep, P).
  split; [|split].
  - exists o, (extra_of d). cbn [st_sketch st_extra]. split; [rewrite Eo; apply nth_last|]. split; [rewrite <- Le; apply nth_last|].
    split; [exact K1|]. split; [exact K2|]. split; [rewrite K3; apply list_ascii_of_string_of_list_ascii|]. split; [|repeat split; try reflexivity; exact K5].
    rewrite K4, Eg. clear - Fj I Nx. induction Fj as [|z j zs js F _ IH]; constructor; [|exact IH].
    destruct (found_op _ _ _ I F) as (p & P & Q). exists p. split; [exact (Nx _ _ P)|exact Q].
  - intros i d' (o' & x & O & X & Q1 & Q2 & Q3 & Q4 & Q). exists o', x. cbn [st_sketch st_extra]. split; [exact (Nx _ _ O)|].
    split; [apply nth_keep, X|]. split; [exact Q1|]. split; [exact Q2|]. split; [exact Q3|]. split; [|exact Q].
    clear - Q4 Nx. induction Q4 as [|r z rs zs (p & P & H) _ IH]; constructor; [|exact IH]. exists p. split; [exact (Nx _ _ P)|exact H].
  - intros z (j & p & P & H). exists j, p. split; [exact (Nx _ _ P)|exact H].
Qed.

Lemma last_default {A} (l : list A) a b : l <> [] -> last l a = last l b.
Proof. induction l as [|x [|y l] IH]; intros H; [congruence|reflexivity|]. apply IH. discriminate. Qed.
Lemma read_readable_last l : forall c known ds st ds0, readable c known l ds -> invariant (st_sketch _ st) ->
  length (st_extra _ st) = length (ops (st_sketch _ st)) -> counter (st_sketch _ st) = c -> length (ops (st_sketch _ st)) = length ds0 ->
  (forall z, In z known -> known_in (st_sketch _ st) z) -> (forall i d, nth_error ds0 i = Some d -> is_operation st i d) ->
  exists st', read_all l st = (Ok tt, st') /\ invariant (st_sketch _ st') /\
    length (st_extra _ st') = length (ops (st_sketch _ st')) /\ length (ops (st_sketch _ st')) = length (ds0 ++ ds) /\
    counter (st_sketch _ st') = last (map d_id ds) c /\
    (forall i d, nth_error (ds0 ++ ds) i = Some d -> is_operation st' i d).
Proof.
  induction l as [|e l IH]; intros c known ds st ds0 R I Le Ec Ld Kn Op; inversion R as [|? ? ? ? ds' U R'|? ? ? d ? ds' Hs Lt In0 R']; subst.
  - exists st. rewrite app_nil_r. split; [reflexivity|]. do 3 (split; [assumption|]). split; [reflexivity|]. exact Op.
  - cbn [ModelValentina.read_all]. rewrite (read_unsupported float_str float_parse db black parse e st U). exact (IH _ _ _ st ds0 R' I Le eq_refl Ld Kn Op).
  - cbn [ModelValentina.read_all].
    destruct (read_known e d st I Le Hs Lt) as (st' & E & I' & Le' & Ec' & Lo & O1 & O2 & O3); [intros z Z; apply Kn, In0, Z|].
    rewrite E. destruct (IH _ _ _ st' (ds0 ++ [d]) R' I' Le' Ec') as (st2 & E2 & I2 & L2 & L3 & L4 & O4).
    + rewrite Lo, app_length, Ld. cbn. lia.
    + intros z [<-|Z]; [|apply O3, Kn, Z]. destruct O1 as (o & x & O & _ & _ & Q & _). exists (length (ops (st_sketch _ st))), o. split; [exact O|exact Q].
    + intros i d' H. destruct (nth_snoc _ _ _ _ H) as [[_ H']|[-> ->]]; [apply O2, Op, H'|]. rewrite <- Ld. exact O1.
    + rewrite <- app_assoc in L3, O4. cbn [app] in L3, O4. exists st2. split; [exact E2|]. do 3 (split; [assumption|]). split; [|exact O4].
      rewrite L4. cbn [map]. destruct ds' as [|d' ds']; [reflexivity|]. cbn [map last]. destruct (map d_id ds'); [reflexivity|]. apply last_default. discriminate.
Qed.
Lemma read_readable l : forall c known ds st ds0, readable c known l ds -> invariant (st_sketch _ st) ->
  length (st_extra _ st) = length (ops (st_sketch _ st)) -> counter (st_sketch _ st) = c -> length (ops (st_sketch _ st)) = length ds0 ->
  (forall z, In z known -> known_in (st_sketch _ st) z) -> (forall i d, nth_error ds0 i = Some d -> is_operation st i d) ->
  exists st', read_all l st = (Ok tt, st') /\ invariant (st_sketch _ st') /\
    length (st_extra _ st') = length (ops (st_sketch _ st')) /\ length (ops (st_sketch _ st')) = length (ds0 ++ ds) /\
    (forall i d, nth_error (ds0 ++ ds) i = Some d -> is_operation st' i d).
Proof.
  intros c known ds st ds0 R I Le Ec Ld Kn Op. destruct (read_readable_last l c known ds st ds0 R I Le Ec Ld Kn Op) as (st' & A1 & A2 & A3 & A4 & _ & A5).
  exists st'. auto.
Qed.
End Pieces.
