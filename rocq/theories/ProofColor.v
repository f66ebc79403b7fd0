From Coq Require Import String Ascii List Bool Arith ZArith NArith Reals Lia Lra.
From Flocq Require Import Core BinarySingleNaN.
From Verif Require Import Base ModelFormula ModelMeasure ModelXml ModelColor SpecColor ProofMeasure.
Import ListNotations.

(** ** The 256 bytes *)
Definition bytes : list Z := map Z.of_nat (seq 0 256).
Lemma in_bytes z : byte z -> In z bytes.
Proof. intros [A B]. apply in_map_iff. exists (Z.to_nat z). split; [lia|]. apply in_seq. lia. Qed.
Definition byte_check (z : Z) : bool :=
  match to_int (to_float z) with Ok w => Z.eqb w z | Raise _ => false end &&
  text_eqb (hex2 z) (byte_text z).
Lemma bytes_checked : forallb byte_check bytes = true.
Proof. vm_compute. reflexivity. Qed.
Lemma byte_checked z : byte z -> byte_check z = true.
Proof. intro B. exact (proj1 (forallb_forall _ _) bytes_checked z (in_bytes z B)). Qed.
Lemma byte_back z : byte z -> to_int (to_float z) = Ok z.
Proof.
  intro B. pose proof (byte_checked z B) as H. unfold byte_check in H. apply andb_prop in H. destruct H as (H & _).
  destruct (to_int (to_float z)) as [w|]; [|discriminate]. apply Z.eqb_eq in H. congruence.
Qed.
Lemma byte_hex z : byte z -> hex2 z = byte_text z.
Proof.
  intro B. pose proof (byte_checked z B) as H. unfold byte_check in H. apply andb_prop in H. destruct H as (_ & H).
  destruct (text_eqb_spec (hex2 z) (byte_text z)); [assumption|discriminate].
Qed.
Definition read_check (z : Z) : bool :=
  let ok a b := match int16 [a; b] with Ok w => Z.eqb w z | Raise _ => false end in
  let h := (z / 16)%Z in let l := (z mod 16)%Z in
  ok (nibble h) (nibble l) && ok (nibble h) (capital l) && ok (capital h) (nibble l) && ok (capital h) (capital l).
Lemma reads_checked : forallb read_check bytes = true.
Proof. vm_compute. reflexivity. Qed.
Lemma byte_read z a b : byte z -> spells_nibble a (z / 16) -> spells_nibble b (z mod 16) -> int16 [a; b] = Ok z.
Proof.
  intros B A C. pose proof (proj1 (forallb_forall _ _) reads_checked z (in_bytes z B)) as H. unfold read_check in H.
  apply andb_prop in H. destruct H as (H & H4). apply andb_prop in H. destruct H as (H & H3). apply andb_prop in H. destruct H as (H1 & H2).
  destruct A as [-> | ->], C as [-> | ->]; match goal with |- ?X = _ => destruct X as [w|]; [|discriminate] end.
  - apply Z.eqb_eq in H1. congruence.
  - apply Z.eqb_eq in H2. congruence.
  - apply Z.eqb_eq in H3. congruence.
  - apply Z.eqb_eq in H4. congruence.
Qed.

(** ** Texts *)
Lemma read_spelled s r g b name : byte r -> byte g -> byte b -> spells s r g b ->
  read_color s name = Ok (Color (to_float r) (to_float g) (to_float b) name).
Proof.
  intros R G B H. destruct H as [c1 c2 c3 c4 c5 c6 r g l H1 H2 H3 H4 H5 H6]. unfold read_color. cbn [Ascii.eqb firstn skipn length Nat.sub].
  change (Ascii.eqb "#" "#") with true. cbn match. rewrite (byte_read r c1 c2 R H1 H2). cbn [bind].
  rewrite (byte_read g c3 c4 G H3 H4). cbn [bind]. rewrite (byte_read l c5 c6 B H5 H6). reflexivity.
Qed.
Lemma rgb_spelled r g b : spells (rgb_text r g b) r g b.
Proof. constructor; left; reflexivity. Qed.
Definition components (c : color) (r g b : Z) : Prop := red c = Ok r /\ green c = Ok g /\ blue c = Ok b.
Lemma str_components c r g b : byte r -> byte g -> byte b -> components c r g b -> color_str c = Ok (rgb_text r g b).
Proof.
  intros R G B (H1 & H2 & H3). unfold color_str. rewrite H1. cbn [bind]. rewrite H2. cbn [bind]. rewrite H3. cbn [bind].
  rewrite (byte_hex r R), (byte_hex g G), (byte_hex b B). reflexivity.
Qed.
Lemma bytes_components r g b name : byte r -> byte g -> byte b -> components (Color (to_float r) (to_float g) (to_float b) name) r g b.
Proof. intros R G B. repeat split; apply byte_back; assumption. Qed.
Lemma text_ok s r g b name : byte r -> byte g -> byte b -> spells s r g b ->
  exists c, new_color [AText s] name = Ok c /\ components c r g b /\ color_str c = Ok (rgb_text r g b) /\ c_name c = name.
Proof.
  intros R G B H. cbn [new_color]. rewrite (read_spelled s r g b name R G B H). eexists. split; [reflexivity|].
  pose proof (bytes_components r g b name R G B) as K. split; [exact K|]. split; [exact (str_components _ _ _ _ R G B K)|reflexivity].
Qed.
Lemma ints_ok r g b name : byte r -> byte g -> byte b ->
  exists c, new_color [AInt r; AInt g; AInt b] name = Ok c /\ components c r g b /\ color_str c = Ok (rgb_text r g b) /\ c_name c = name.
Proof.
  intros R G B. cbn [new_color check_value].
  assert (K : forall z, byte z -> ((0 <=? z) && (z <=? 255))%Z = true) by (intros z [A C]; apply andb_true_intro; split; apply Z.leb_le; assumption).
  rewrite (K r R), (K g G), (K b B). cbn [bind]. eexists. split; [reflexivity|].
  pose proof (bytes_components r g b name R G B) as Q. split; [exact Q|]. split; [exact (str_components _ _ _ _ R G B Q)|reflexivity].
Qed.

(** ** Every float between 0 and 1 *)
Lemma leb_finite (x : float) : Bleb (B754_zero false) x = true -> Bleb x (of_int 1) = true -> is_finite x = true.
Proof. intros A B. destruct x as [sx|sx| |sx m e H]; try reflexivity; try destruct sx; discriminate. Qed.
Lemma sf_real (x : float) z m e : B2SF x = SpecFloat.S754_finite false m e -> (e < 0)%Z -> Zpos m = (z * 2 ^ (- e))%Z -> B2R x = IZR z.
Proof.
  intros H E M. rewrite <- SF2R_B2SF, H. cbn [SF2R cond_Zopp]. unfold F2R. cbn [Fnum Fexp]. rewrite M, mult_IZR.
  change (2 ^ (- e))%Z with (radix_val radix2 ^ (- e))%Z. rewrite IZR_Zpower by lia. rewrite Rmult_assoc, <- bpow_plus. replace (- e + e)%Z with 0%Z by lia. cbn. ring.
Qed.
Lemma real_255 : B2R (of_int 255) = 255%R.
Proof. eapply sf_real; [vm_compute; reflexivity|lia|reflexivity]. Qed.
Lemma real_1 : B2R (of_int 1) = 1%R.
Proof. eapply sf_real; [vm_compute; reflexivity|lia|reflexivity]. Qed.
Lemma channel_range (x : float) : Bleb (B754_zero false) x = true -> Bleb x (of_int 1) = true -> exists z, to_int x = Ok z /\ byte z.
Proof.
  intros A B. pose proof (leb_finite x A B) as F.
  rewrite Bleb_correct in A by (exact F || reflexivity). rewrite Bleb_correct in B by (exact F || reflexivity).
  rewrite real_1 in B. change (B2R (B754_zero false)) with 0%R in A.
  destruct (Rle_bool_spec 0 (B2R x)) as [A'|]; [|discriminate]. destruct (Rle_bool_spec (B2R x) 1) as [B'|]; [|discriminate].
  assert (L : (0 <= round radix2 (SpecFloat.fexp 53 1024) (round_mode mode_NE) (B2R x * 255))%R).
  { apply round_ge_generic; [apply fexp_correct; exact prec_ok|apply valid_rnd_round_mode|apply generic_format_0|lra]. }
  assert (U : (round radix2 (SpecFloat.fexp 53 1024) (round_mode mode_NE) (B2R x * 255) <= 255)%R).
  { apply round_le_generic; [apply fexp_correct; exact prec_ok|apply valid_rnd_round_mode| |lra]. rewrite <- real_255. apply generic_format_B2R. }
  pose proof (@Bmult_correct 53 1024 prec_ok emax_ok mode_NE x (of_int 255)) as M. rewrite real_255 in M.
  rewrite Rlt_bool_true in M.
  2:{ rewrite Rabs_pos_eq by exact L. eapply Rle_lt_trans; [exact U|]. change 255%R with (IZR 255). apply Rlt_le_trans with (bpow radix2 8); [cbn; lra|]. apply bpow_le. lia. }
  destruct M as (M1 & M2 & _). unfold to_int, fmul. set (y := Bmult mode_NE x (of_int 255)) in *.
  rewrite F in M2. change (is_finite (of_int 255)) with true in M2. cbn [andb] in M2.
  exists (Btrunc y). split; [destruct y; try discriminate; reflexivity|].
  pose proof (Btrunc_correct 53 1024 emax_ok y) as T. rewrite <- M1 in L, U.
  assert (Q : IZR (Btrunc y) = IZR (Ztrunc (B2R y))) by (rewrite T; unfold round, scaled_mantissa, cexp, FIX_exp, F2R; cbn; rewrite !Rmult_1_r; reflexivity).
  apply eq_IZR in Q. rewrite Q. split; [rewrite <- (Ztrunc_IZR 0)|rewrite <- (Ztrunc_IZR 255)]; apply Ztrunc_le; assumption.
Qed.

Definition accepted (x : float) : Prop := check_value (AFloat x) = Ok x.
Definition valid (c : color) : Prop := accepted (c_red c) /\ accepted (c_green c) /\ accepted (c_blue c).
Lemma accepted_iff x : accepted x <-> Bleb (B754_zero false) x = true /\ Bleb x (of_int 1) = true.
Proof.
  unfold accepted. cbn [check_value]. destruct (Bleb (B754_zero false) x), (Bleb x (of_int 1)); cbn [andb]; split; intro H; try discriminate; try (split; reflexivity); try reflexivity;
    destruct H; discriminate.
Qed.
Lemma check_value_accepted a x : check_value a = Ok x -> accepted x.
Proof.
  destruct a as [z|y| | |]; cbn [check_value]; try discriminate.
  - destruct ((0 <=? z) && (z <=? 255))%Z eqn:E; [|discriminate]. intro H. injection H as <-. apply andb_prop in E. destruct E as (E1 & E2).
    apply Z.leb_le in E1, E2.
    assert (K : forallb (fun z => Bleb (B754_zero false) (to_float z) && Bleb (to_float z) (of_int 1)) bytes = true) by (vm_compute; reflexivity).
    pose proof (proj1 (forallb_forall _ _) K z (in_bytes z (conj E1 E2))) as Q. cbv beta in Q. apply andb_prop in Q. apply accepted_iff. exact Q.
  - destruct (Bleb (B754_zero false) y && Bleb y (of_int 1)) eqn:E; [|discriminate]. intro H. injection H as <-. apply andb_prop in E. apply accepted_iff. exact E.
Qed.
Lemma valid_components c : valid c -> exists r g b, byte r /\ byte g /\ byte b /\ components c r g b /\ color_str c = Ok (rgb_text r g b).
Proof.
  intros (A & B & C). apply accepted_iff in A, B, C.
  destruct (channel_range _ (proj1 A) (proj2 A)) as (r & R1 & R2). destruct (channel_range _ (proj1 B) (proj2 B)) as (g & G1 & G2).
  destruct (channel_range _ (proj1 C) (proj2 C)) as (b & B1 & B2). exists r, g, b.
  assert (K : components c r g b) by (repeat split; assumption). repeat (split; [assumption|]). exact (str_components c r g b R2 G2 B2 K).
Qed.
Lemma three_ok a1 a2 a3 name c : new_color [a1; a2; a3] name = Ok c -> valid c /\ c_name c = name.
Proof.
  unfold new_color. intro H.
  assert (K : forall a1 a2 a3, bind (check_value a1) (fun r => bind (check_value a2) (fun g => bind (check_value a3) (fun b => Ok (Color r g b name)))) = Ok c -> valid c /\ c_name c = name).
  { clear. intros a1 a2 a3. destruct (check_value a1) eqn:E1; [|discriminate]. destruct (check_value a2) eqn:E2; [|discriminate]. destruct (check_value a3) eqn:E3; [|discriminate].
    cbn. intro H. injection H as <-. split; [|reflexivity]. repeat split; eapply check_value_accepted; eassumption. }
  destruct a1; apply K in H; exact H.
Qed.
Lemma clone_ok c : valid c -> clone c = Ok c.
Proof.
  intros (A & B & C). unfold clone, new_color. unfold accepted in *. rewrite A. cbn [bind]. rewrite B. cbn [bind]. rewrite C. destruct c. reflexivity.
Qed.
Lemma setters_ok c a : valid c -> (forall d, set_red c a = Ok d -> valid d /\ c_green d = c_green c /\ c_blue d = c_blue c /\ c_name d = c_name c /\ check_value a = Ok (c_red d)) /\
  (forall d, set_green c a = Ok d -> valid d /\ c_red d = c_red c /\ c_blue d = c_blue c /\ c_name d = c_name c /\ check_value a = Ok (c_green d)) /\
  (forall d, set_blue c a = Ok d -> valid d /\ c_red d = c_red c /\ c_green d = c_green c /\ c_name d = c_name c /\ check_value a = Ok (c_blue d)).
Proof.
  intros (A & B & C). split; [|split]; intros d; [unfold set_red|unfold set_green|unfold set_blue]; destruct (check_value a) as [x|] eqn:E; try discriminate; cbn; intro H;
    injection H as <-; pose proof (check_value_accepted a x E); repeat split; assumption.
Qed.
Lemma rgb_inj r g b r' g' b' : byte r -> byte g -> byte b -> byte r' -> byte g' -> byte b' -> rgb_text r g b = rgb_text r' g' b' -> r = r' /\ g = g' /\ b = b'.
Proof.
  intros R G B R' G' B' H. pose proof (read_spelled _ r g b None R G B (rgb_spelled r g b)) as E. rewrite H in E.
  rewrite (read_spelled _ r' g' b' None R' G' B' (rgb_spelled r' g' b')) in E. injection E as E1 E2 E3.
  pose proof (byte_back r R) as K1. pose proof (byte_back g G) as K2. pose proof (byte_back b B) as K3.
  rewrite <- E1, (byte_back r' R') in K1. rewrite <- E2, (byte_back g' G') in K2. rewrite <- E3, (byte_back b' B') in K3.
  injection K1 as K1. injection K2 as K2. injection K3 as K3. auto.
Qed.
Lemma equal_ok c d : valid c -> valid d -> exists b, color_eq c d = Ok b /\ (b = true <-> red c = red d /\ green c = green d /\ blue c = blue d).
Proof.
  intros C D. destruct (valid_components c C) as (r & g & b & R & G & B & (K1 & K2 & K3) & E). destruct (valid_components d D) as (r' & g' & b' & R' & G' & B' & (K1' & K2' & K3') & E').
  unfold color_eq. rewrite E, E'. cbn [bind]. eexists. split; [reflexivity|]. rewrite K1, K2, K3, K1', K2', K3'.
  destruct (text_eqb_spec (rgb_text r g b) (rgb_text r' g' b')) as [Q|Q]; split; intro H; try discriminate; try reflexivity.
  - destruct (rgb_inj r g b r' g' b' R G B R' G' B' Q) as (-> & -> & ->). auto.
  - destruct H as (H1 & H2 & H3). congruence.
Qed.
Lemma copy_ok c name : valid c -> exists d, new_color [AColor c] name = Ok d /\ red d = red c /\ green d = green c /\ blue d = blue c /\ color_str d = color_str c /\ valid d.
Proof.
  intro C. destruct (valid_components c C) as (r & g & b & R & G & B & (K1 & K2 & K3) & E). unfold new_color. rewrite E. cbn [bind].
  rewrite (read_spelled _ r g b name R G B (rgb_spelled r g b)). eexists. split; [reflexivity|].
  destruct (bytes_components r g b name R G B) as (Q1 & Q2 & Q3). rewrite Q1, Q2, Q3, K1, K2, K3. repeat (split; [reflexivity|]).
  split; [exact (str_components _ r g b R G B (conj Q1 (conj Q2 Q3)))|].
  assert (V : forall z, byte z -> accepted (to_float z)).
  { intros z [Z1 Z2]. apply (check_value_accepted (AInt z)). cbn [check_value]. apply Z.leb_le in Z1, Z2. rewrite Z1, Z2. reflexivity. }
  repeat split; apply V; assumption.
Qed.
Lemma text_round_trip c name : valid c -> exists t d, color_str c = Ok t /\ new_color [AText t] name = Ok d /\ color_str d = Ok t /\ color_eq c d = Ok true.
Proof.
  intro C. destruct (valid_components c C) as (r & g & b & R & G & B & K & E). destruct (text_ok (rgb_text r g b) r g b name R G B (rgb_spelled r g b)) as (d & D1 & _ & D2 & _).
  exists (rgb_text r g b), d. repeat (split; [assumption|]). unfold color_eq. rewrite E, D2. cbn [bind]. destruct (text_eqb_spec (rgb_text r g b) (rgb_text r g b)); [reflexivity|congruence].
Qed.

(** ** The data base *)
Definition text_of (v : text) : result text := bind (new_color [AText v] None) color_str.
Lemma name_irrelevant v name : bind (new_color [AText v] name) color_str = text_of v.
Proof.
  unfold text_of. cbn [new_color]. unfold read_color. destruct v as [|c rgb]; [reflexivity|]. destruct (Ascii.eqb c "#"); [|reflexivity].
  destruct (int16 (firstn 2 rgb)); [|reflexivity]. cbn [bind]. destruct (int16 (firstn 2 (skipn 2 rgb))); [|reflexivity]. cbn [bind].
  destruct (int16 (skipn (length rgb - 2) rgb)); reflexivity.
Qed.
Lemma first_given_text l name : first_given l name = match l with [] => None | (n, v) :: l => if text_eqb (replace (lit " ") (lit "_") n) name then Some v else first_given l name end.
Proof.
  destruct l as [|[n v] l]; [reflexivity|]. cbn [first_given]. rewrite replace_spaces.
  match goal with |- context [list_eq_dec ascii_dec ?a ?b] => destruct (list_eq_dec ascii_dec a b) as [E|E] end; match goal with |- context [text_eqb ?a ?b] => destruct (text_eqb_spec a b) end; try reflexivity; exfalso; auto.
Qed.
Lemma fill_ok l : forall db db', fill db l = Ok db' -> forall name,
  match lookup db name with
  | Some d => exists d', lookup db' name = Some d' /\ color_str d' = color_str d
  | None =>
      match first_given l name with
      | Some v => exists d', lookup db' name = Some d' /\ color_str d' = text_of v
      | None => lookup db' name = None
      end
  end.
Proof.
  induction l as [|[n v] l IH]; intros db db' H name; cbn [fill] in H.
  - injection H as <-. cbn. destruct (lookup db name) as [d|]; [exists d; split; reflexivity|reflexivity].
  - rewrite first_given_text. remember (replace (lit " ") (lit "_") n) as n' eqn:En. clear En.
    destruct (new_color [AText v] (Some n')) as [c|] eqn:E; [|discriminate]. cbn [bind] in H.
    pose proof (name_irrelevant v (Some n')) as TV. rewrite E in TV. cbn [bind] in TV.
    destruct (lookup db n') as [d|] eqn:L.
    + destruct (color_eq c d) as [same|] eqn:EQ; [|discriminate]. cbn [bind] in H. specialize (IH _ _ H name).
      assert (SE : same = true -> color_str c = color_str d).
      { intros ->. unfold color_eq in EQ. destruct (color_str c) as [a|]; [|discriminate]. destruct (color_str d) as [b|]; [|discriminate]. cbn in EQ.
        destruct (text_eqb_spec a b); congruence. }
      destruct same.
      * unfold add in IH. rewrite lookup_set in IH. destruct (text_eqb_spec n' name) as [EN|N]; [rewrite <- EN in *; clear EN|].
        -- rewrite L. destruct IH as (d' & D1 & D2). exists d'. split; [exact D1|]. rewrite D2. apply SE. reflexivity.
        -- destruct (lookup db name); exact IH.
      * destruct (text_eqb_spec n' name) as [EN|N]; [rewrite <- EN in *; clear EN|]; [rewrite L in IH |- *; exact IH|]. destruct (lookup db name); exact IH.
    + specialize (IH _ _ H name). unfold add in IH. rewrite lookup_set in IH. destruct (text_eqb_spec n' name) as [EN|N]; [rewrite <- EN in *; clear EN|].
      * rewrite L. destruct IH as (d' & D1 & D2). exists d'. split; [exact D1|]. rewrite D2. exact TV.
      * destruct (lookup db name); exact IH.
Qed.
Lemma database_ok l db : fill [] l = Ok db -> forall name,
  match first_given l name with
  | Some v => exists d, getitem db name = Ok d /\ color_str d = text_of v
  | None => getitem db name = Raise KeyError
  end.
Proof.
  intros H name. pose proof (fill_ok l [] db H name) as K. cbn [lookup] in K. unfold getitem. destruct (first_given l name).
  - destruct K as (d & K1 & K2). exists d. rewrite K1. split; [reflexivity|exact K2].
  - rewrite K. reflexivity.
Qed.
Lemma ensure_ok db a c : ensure_color db a = Ok c -> ensure_color db (option_map AColor c) = Ok c.
Proof. intros _. destruct c; reflexivity. Qed.
Lemma ensure_text_ok db s r g b : byte r -> byte g -> byte b -> spells s r g b -> exists c, ensure_color db (Some (AText s)) = Ok (Some c) /\ components c r g b.
Proof.
  intros R G B H. destruct (text_ok s r g b None R G B H) as (c & C1 & C2 & _). exists c. split; [|exact C2].
  cbn [ensure_color]. rewrite C1. destruct H. reflexivity.
Qed.
Lemma accepted_text s name c : new_color [AText s] name = Ok c ->
  exists rgb r g b, s = "#"%char :: rgb /\ int16 (firstn 2 rgb) = Ok r /\ int16 (firstn 2 (skipn 2 rgb)) = Ok g /\
    int16 (skipn (length rgb - 2) rgb) = Ok b /\ c = Color (to_float r) (to_float g) (to_float b) name.
Proof.
  cbn [new_color]. unfold read_color. destruct s as [|h rgb]; [discriminate|]. destruct (Ascii.eqb_spec h "#"%char) as [->|]; [|discriminate].
  destruct (int16 (firstn 2 rgb)) as [r|] eqn:E1; [|discriminate]. cbn [bind]. destruct (int16 (firstn 2 (skipn 2 rgb))) as [g|] eqn:E2; [|discriminate]. cbn [bind].
  destruct (int16 (skipn (length rgb - 2) rgb)) as [b|] eqn:E3; [|discriminate]. cbn [bind]. intro H. injection H as <-. exists rgb, r, g, b. auto 10.
Qed.
Definition same_text (r : result text) (s : text) : bool := match r with Ok t => text_eqb t s | Raise _ => false end.
