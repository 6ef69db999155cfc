(** Theorems on certificate sources and on verifying files: C54-C56, C58-C61, C67-C69. *)

From Verif Require Import Base Enums Chunks DDScalar RawTypes RawCard P_RawCard Infer.
From Verif Require Import Props_RawCard Cert P_Cert DriverCard P_Driver Vu Verify Api P_Dump Props_Dump Props_Driver.
From Verif Require Import P_Scalar Props_Cert.
From Verif Require P_Vu.

(** ** What is verified *)

(** The certificate [raw] carries a valid signature by the owner of the key [n], [e]
    who is called [name]; [content] is what was signed. *)
Definition issued (k : crypto) (raw name n e content : bytes) : Prop :=
  length raw = 194%nat /\ n <> [] /\ e <> [] /\ name = dec (be (sub raw 186 8)) /\ rsa_signed k raw n e content.

(** The authority certificate used for a reference [car]: what the source answers,
    if that has a key, and else its content as signed by the root. *)
Definition authority (k : crypto) (r : resolver) (car name n e : bytes) : Prop :=
  exists a, get_rsa r car = Ok (Some a) /\
    ((rsa_n a <> [] /\ rsa_e a <> [] /\ name = rsa_chr a /\ n = rsa_n a /\ e = rsa_e a) \/
     ((rsa_n a = [] \/ rsa_e a = []) /\
      exists root content, get_root r = Ok (Some root) /\
        issued k (rsa_raw a) (root_key_id root) (root_n root) (root_e root) content /\
        name = dec (be (sub content 20 8)) /\ n = sub content 28 128 /\ e = sub content 156 8)).

Definition authentic1 (k : crypto) (r : resolver) (x : rsa_cert) : Prop :=
  exists name n e content, authority k r (rsa_car x) name n e /\ issued k (rsa_raw x) name n e content.

(** [ecc_signed] is the validity of the ECDSA signature under the authority's key. *)
Definition authentic2 (k : crypto) (r : resolver) (x : ecc_cert) : Prop :=
  exists a, get_ecc r (ecc_car x) = Ok (Some a) /\ ecc_signed k x a.

(** A source gives bytes. *)
Definition answers_bytes (r : resolver) : Prop :=
  (forall car a, get_rsa r car = Ok (Some a) -> bytes_ok (rsa_raw a) /\ bytes_ok (rsa_n a)) /\
  (forall root, get_root r = Ok (Some root) -> bytes_ok (root_n root)).

Lemma rsa_signed_unique k raw n e c1 c2 : hash_bytes k -> rsa_signed k raw n e c1 -> rsa_signed k raw n e c2 -> c1 = c2.
Proof.
  intros HK (a & A1 & A2 & A3 & A4 & A5) (b & B1 & B2 & B3 & B4 & B5).
  assert (E : be (106 :: a ++ sha1 k c1 ++ [188]) = be (106 :: b ++ sha1 k c2 ++ [188])).
  { apply mod_exp_recovers in A5, B5. congruence. }
  assert (OK : forall x h, bytes_ok x -> bytes_ok h -> bytes_ok (106 :: x ++ h ++ [188])).
  { intros x h X H. apply bytes_ok_cons. split; [unfold byte_ok; lia|]. rewrite !bytes_ok_app. repeat split; auto.
    constructor; [unfold byte_ok; lia|constructor]. }
  assert (L : forall x h, length x = 106%nat -> length h = 20%nat -> length (106 :: x ++ h ++ [188]) = 128%nat).
  { intros x h X H. cbn [length]. rewrite !app_length, X, H. reflexivity. }
  pose proof (to_be_be 128 _ (OK a (sha1 k c1) A1 (HK c1)) (L _ _ A2 A4)) as Ta.
  pose proof (to_be_be 128 _ (OK b (sha1 k c2) B1 (HK c2)) (L _ _ B2 B4)) as Tb.
  rewrite <- E, Ta in Tb. assert (Q : a ++ sha1 k c1 ++ [188] = b ++ sha1 k c2 ++ [188]) by congruence.
  apply P_Vu.app_inj_length in Q as [Q _]; congruence.
Qed.

Lemma verify_rsa_ok k x n e name x' : hash_bytes k -> bytes_ok (rsa_raw x) -> bytes_ok n ->
  verify_rsa k x n e name = (Ok tt, x') <->
  exists content, issued k (rsa_raw x) name n e content /\ x' = rsa_filled x content.
Proof.
  intros HK B N. unfold issued. split.
  - intros E. destruct (verify_rsa_cases k x n e name HK B N) as [(L & [KN KE] & C & content & G & R)|[(_ & R)|(_ & _ & _ & R)]];
      rewrite E in R; try discriminate.
    exists content. split; [auto|]. now injection R.
  - intros (content & (L & KN & KE & C & G) & ->).
    destruct (verify_rsa_cases k x n e name HK B N) as [(_ & _ & _ & content' & G' & R)|[(W & _)|(_ & _ & W & _)]].
    + rewrite (rsa_signed_unique k _ _ _ _ _ HK G G'). exact R.
    + exfalso. destruct W as [W|W]; [auto|]. apply W. split; auto.
    + exfalso. apply W. eauto.
Qed.

Lemma verify_rsa_only_ok k x n e name o x' : hash_bytes k -> bytes_ok (rsa_raw x) -> bytes_ok n ->
  verify_rsa k x n e name = (o, x') -> o = Ok tt \/ o = fail.
Proof.
  intros HK B N E. destruct (verify_rsa_cases k x n e name HK B N) as [(_ & _ & _ & content' & _ & R)|[(W & R)|(_ & _ & W & R)]];
    rewrite E in R; injection R as -> _; auto.
Qed.

Lemma signed_bytes k raw n e content : bytes_ok raw -> rsa_signed k raw n e content -> bytes_ok content.
Proof. intros B (cr & C & _ & -> & _). apply bytes_ok_app. split; auto. now apply bytes_ok_sub. Qed.

Lemma obtain_ok k r c x ca : hash_bytes k -> answers_bytes r -> obtain_rsa_ca k (Some r) c x = Ok ca ->
  authority k r (rsa_car x) (rsa_chr ca) (rsa_n ca) (rsa_e ca) /\ bytes_ok (rsa_n ca).
Proof.
  intros HK (R1 & R2) E. unfold obtain_rsa_ca in E. apply bind_ok in E as (o & G & E).
  destruct o as [a|].
  - cbn [odflt] in E. destruct (R1 _ _ G) as (B1 & B2).
    destruct ((length (rsa_n a) =? 0)%nat || (length (rsa_e a) =? 0)%nat) eqn:K.
    + apply bind_ok in E as ([root|] & GR & E); [|discriminate E].
      unfold verify_rsa_with_root in E.
      destruct (verify_rsa k a (root_n root) (root_e root) (root_key_id root)) as [[[]|?|] a'] eqn:V; try discriminate.
      apply Ok_inj in E. subst a'. apply verify_rsa_ok in V as (content & I & ->); auto.
      split.
      * exists a. split; auto. right. split.
        { apply orb_true_iff in K as [K|K]; apply Nat.eqb_eq, length_zero_iff_nil in K; auto. }
        exists root, content. split; auto.
      * cbn [rsa_filled rsa_n]. apply bytes_ok_sub. destruct I as (_ & _ & _ & _ & I). now apply signed_bytes in I.
    + apply Ok_inj in E. subst ca. split; auto. exists a. split; auto. left.
      apply orb_false_iff in K as [K1 K2]. apply Nat.eqb_neq in K1, K2.
      split; [intros X; rewrite X in K1; now apply K1|]. split; [intros X; rewrite X in K2; now apply K2|]. auto.
  - exfalso. cbn in E. apply bind_ok in E as (root & GR & E). discriminate E.
Qed.

Lemma ok_obtain k r c x name n e : hash_bytes k -> answers_bytes r -> authority k r (rsa_car x) name n e ->
  exists ca, obtain_rsa_ca k (Some r) c x = Ok ca /\ rsa_chr ca = name /\ rsa_n ca = n /\ rsa_e ca = e.
Proof.
  intros HK (R1 & R2) (a & G & H). unfold obtain_rsa_ca. rewrite G. cbn [bind odflt]. destruct (R1 _ _ G) as (B1 & B2).
  destruct H as [(N & E & -> & -> & ->)|(K & root & content & GR & I & -> & -> & ->)].
  - exists a. destruct (rsa_n a); [now destruct N|]. destruct (rsa_e a); [now destruct E|]. cbn. auto.
  - replace ((length (rsa_n a) =? 0)%nat || (length (rsa_e a) =? 0)%nat) with true
      by (destruct K as [-> | ->]; [reflexivity|symmetry; apply orb_true_r]).
    rewrite GR. cbn [bind verify_rsa_with_root].
    assert (V : verify_rsa k a (root_n root) (root_e root) (root_key_id root) = (Ok tt, rsa_filled a content)) by (apply verify_rsa_ok; eauto).
    rewrite V. exists (rsa_filled a content). auto.
Qed.

Lemma authentic1_iff k r c x : hash_bytes k -> answers_bytes r -> bytes_ok (rsa_raw x) -> card_certificate c = Some x ->
  fst (verify_gen1 k (Some r) c) = Ok tt <-> authentic1 k r x.
Proof.
  intros HK R B X. unfold verify_gen1. rewrite X. unfold authentic1. split.
  - destruct (obtain_rsa_ca k (Some r) c x) as [ca|?|] eqn:O; try discriminate.
    apply obtain_ok in O as (O & N); auto. unfold verify_rsa_with_ca.
    destruct (verify_rsa k x (rsa_n ca) (rsa_e ca) (rsa_chr ca)) as [o x'] eqn:V. cbn [fst]. intros ->.
    apply verify_rsa_ok in V as (content & I & _); auto. eauto 10.
  - intros (name & n & e & content & A & I). pose proof (ok_obtain k r c x name n e HK R A) as (ca & O & E1 & E2 & E3).
    rewrite O. apply obtain_ok in O as (_ & N); auto. unfold verify_rsa_with_ca.
    rewrite E1, E3, E2 in *.
    assert (V : verify_rsa k x n e name = (Ok tt, rsa_filled x content)) by (apply verify_rsa_ok; eauto).
    rewrite V. reflexivity.
Qed.

Lemma authentic2_iff k r c x : bytes_ok (ecc_raw x) -> card_sign_certificate c = Some x ->
  (204 <= length (ecc_raw x) <= 341)%nat ->
  fst (verify_gen2 k (Some r) c) = Ok tt <-> authentic2 k r x.
Proof.
  intros B X L. unfold verify_gen2. rewrite X. unfold authentic2. cbn [obtain_ecc_ca]. split.
  - destruct (get_ecc r (ecc_car x)) as [[a|]|?|] eqn:G; try discriminate. intros H. exists a. split; auto.
    destruct (verify_ecc k x (Some a)) as [o x'] eqn:V. cbn [fst] in H. subst o.
    destruct (verify_ecc_cases k x a B) as [(_ & S & _)|[(_ & _ & [R|R])|(_ & e & R)]]; auto; rewrite V in R; discriminate.
  - intros (a & G & S). rewrite G. destruct (verify_ecc k x (Some a)) as [o x'] eqn:V. cbn [fst].
    destruct (verify_ecc_cases k x a B) as [(_ & _ & R)|[(_ & N & _)|(N & _)]]; [rewrite V in R; now injection R|contradiction|].
    exfalso. apply N. destruct S as (key & bits & cv & outer & body & t0 & t1 & s1 & s2 & S1 & S2 & S3 & S4 & S5 & S6 & S7 & S8 & _).
    split; auto. split; [|eauto 8]. exists key. rewrite S4. auto.
Qed.

(** ** Slots after verification *)

Lemma slot_set_same c s v : slot_of_card (set_slot c s v) s = Some v.
Proof. rewrite slot_of_set. now rewrite entry_at_self. Qed.

Lemma slot_set_other c s v t : s <> t -> slot_of_card (set_slot c s v) t = slot_of_card c t.
Proof. intros N. rewrite slot_of_set. now rewrite entry_at_other. Qed.

Lemma verify_rsa_raw k x n e name : rsa_raw (snd (verify_rsa k x n e name)) = rsa_raw x.
Proof.
  unfold verify_rsa. repeat match goal with |- context [if ?b then _ else _] => destruct b; [reflexivity|] end. reflexivity.
Qed.

Lemma verify_ecc_mark k x a : exists v, snd (verify_ecc k x a) =
  mkEcc (ecc_cpi x) (ecc_car x) (ecc_cha x) (ecc_pk x) (ecc_chr x) (ecc_from x) (ecc_to x) (ecc_sig x) v (ecc_raw x).
Proof.
  assert (E : x = mkEcc (ecc_cpi x) (ecc_car x) (ecc_cha x) (ecc_pk x) (ecc_chr x) (ecc_from x) (ecc_to x) (ecc_sig x) (ecc_valid x) (ecc_raw x))
    by now destruct x.
  unfold verify_ecc. destruct (ecc_prepare k x a) as [[[[h cv] px] py]|?|]; [|eauto..].
  destruct (ecc_sig x) as [[s1 s2]|] eqn:G.
  - destruct (ecdsa _ _ _ _ _ _ _) as [[]|]; cbn [snd]; unfold ecc_mark; rewrite ?G; eauto.
  - cbn [snd]. unfold ecc_mark. rewrite G. eauto.
Qed.

(** [c'] is [c] except for what was decoded from or marked on two certificates. *)
Definition card_frame (c c' : driver_card) : Prop :=
  (forall a, dc_has c' a = dc_has c a) /\
  (forall s, s <> S_card_cert -> s <> S2_sign_cert -> slot_of_card c' s = slot_of_card c s) /\
  match slot_of_card c S_card_cert with
  | None => slot_of_card c' S_card_cert = None
  | Some (x, g) => exists x', slot_of_card c' S_card_cert = Some (x', g) /\ rsa_raw x' = rsa_raw x
  end /\
  match slot_of_card c S2_sign_cert with
  | None => slot_of_card c' S2_sign_cert = None
  | Some (x, g) => exists v, slot_of_card c' S2_sign_cert = Some
      (mkEcc (ecc_cpi x) (ecc_car x) (ecc_cha x) (ecc_pk x) (ecc_chr x) (ecc_from x) (ecc_to x) (ecc_sig x) v (ecc_raw x), g)
  end.

Lemma frame_refl c : card_frame c c.
Proof.
  split; auto. split; auto. split.
  - destruct (slot_of_card c S_card_cert) as [[x g]|]; eauto.
  - destruct (slot_of_card c S2_sign_cert) as [[x g]|]; auto. exists (ecc_valid x). destruct x. reflexivity.
Qed.

Lemma frame_trans c1 c2 c3 : card_frame c1 c2 -> card_frame c2 c3 -> card_frame c1 c3.
Proof.
  intros (A1 & A2 & A3 & A4) (B1 & B2 & B3 & B4). split; [congruence|]. split; [intros; rewrite B2, A2; auto|]. split.
  - destruct (slot_of_card c1 S_card_cert) as [[x g]|]; [destruct A3 as (x' & A3 & R)|]; rewrite A3 in B3; auto.
    destruct B3 as (x'' & B3 & R'). exists x''. split; congruence.
  - destruct (slot_of_card c1 S2_sign_cert) as [[x g]|]; [destruct A4 as (v & A4)|]; rewrite A4 in B4; auto.
Qed.

Lemma slot_present {c s} {e : entry s} : slot_of_card c s = Some e -> dc_has c (slot_app s) = true.
Proof. unfold slot_of_card. destruct (dc_has c (slot_app s)); [auto|discriminate]. Qed.

Lemma verify_gen1_frame k r c : card_frame c (snd (verify_gen1 k r c)).
Proof.
  unfold verify_gen1, card_certificate, rsa_of. destruct (slot_of_card c S_card_cert) as [[x g]|] eqn:X; cbn [option_map fst].
  2: apply frame_refl.
  destruct (obtain_rsa_ca k r c x) as [ca|?|]; try apply frame_refl.
  destruct (verify_rsa_with_ca k x (Some ca)) as [o x'] eqn:V. cbn [snd]. unfold store_rsa. rewrite X. cbn [signature_of].
  split; [|split; [|split]].
  - intros a. cbn [set_slot dc_has]. destruct (app_eqb a (slot_app S_card_cert)) eqn:E; auto. apply app_eqb_eq in E. subst a.
    rewrite (slot_present X). reflexivity.
  - intros s N _. apply slot_set_other. auto.
  - rewrite X, slot_set_same. exists x'. split; auto. rewrite <- (verify_rsa_raw k x (rsa_n ca) (rsa_e ca) (rsa_chr ca)).
    unfold verify_rsa_with_ca in V. now rewrite V.
  - rewrite slot_set_other by discriminate. destruct (slot_of_card c S2_sign_cert) as [[y h]|]; auto. exists (ecc_valid y). destruct y. reflexivity.
Qed.

Lemma verify_gen2_frame k r c : card_frame c (snd (verify_gen2 k r c)).
Proof.
  unfold verify_gen2, card_sign_certificate, ecc_of. destruct (slot_of_card c S2_sign_cert) as [[x g]|] eqn:X; cbn [option_map fst].
  2: apply frame_refl.
  destruct (obtain_ecc_ca r c x) as [ca|?|]; try apply frame_refl.
  destruct (verify_ecc k x ca) as [o x'] eqn:V. cbn [snd]. unfold store_ecc. rewrite X. cbn [signature_of].
  split; [|split; [|split]].
  - intros a. cbn [set_slot dc_has]. destruct (app_eqb a (slot_app S2_sign_cert)) eqn:E; auto. apply app_eqb_eq in E. subst a.
    rewrite (slot_present X). reflexivity.
  - intros s _ N. apply slot_set_other. auto.
  - rewrite slot_set_other by discriminate. destruct (slot_of_card c S_card_cert) as [[y h]|]; eauto.
  - rewrite X, slot_set_same. destruct (verify_ecc_mark k x ca) as (v & E). rewrite V in E. cbn [snd] in E. rewrite E. eauto.
Qed.

Lemma verify_driver_frame k r c : card_frame c (snd (verify_driver_card k r c)).
Proof.
  unfold verify_driver_card. assert (F : card_frame c (snd (if dc_has c Gen1 then verify_gen1 k r c else (Ok tt, c)))).
  { destruct (dc_has c Gen1); [apply verify_gen1_frame|apply frame_refl]. }
  destruct (if dc_has c Gen1 then _ else _) as [o c1]. cbn [snd] in F. destruct o as [[]|?|]; auto.
  destruct (dc_has c1 Gen2); auto. eapply frame_trans; [exact F|apply verify_gen2_frame].
Qed.

Lemma write_frame c c' p : card_frame c c' -> write_slot c' p = write_slot c p.
Proof.
  intros (_ & F & G1 & G2). destruct p as [s k]. unfold write_slot. cbn [fst snd].
  destruct (slot_eq_dec s S_card_cert) as [->|N1].
  - destruct (slot_of_card c S_card_cert) as [[x g]|]; [destruct G1 as (x' & G1 & R)|]; rewrite G1; auto.
    cbn [append_content]. now rewrite R.
  - destruct (slot_eq_dec s S2_sign_cert) as [->|N2]; [|now rewrite F].
    destruct (slot_of_card c S2_sign_cert) as [[x g]|]; [destruct G2 as (x' & G2)|]; now rewrite G2.
Qed.

Lemma marshal_frame c c' : card_frame c c' -> marshal_driver_card (Some c') = marshal_driver_card (Some c).
Proof.
  intros F. cbn [marshal_driver_card]. generalize marshal_order. intros l.
  induction l as [|p l IH]; auto. cbn [concat_res]. now rewrite (write_frame c c' p F), IH.
Qed.

(** * C59: verification leaves everything but certificates untouched *)

Theorem C59_frame : forall k r f o f', verify_file k r (Some f) = (o, f') ->
  exists g, f' = Some g /\ file_type g = file_type f /\ file_vu g = file_vu f /\ file_raw_card g = file_raw_card f /\
    match file_driver_card f with
    | None => file_driver_card g = None
    | Some c => exists c', file_driver_card g = Some c' /\ card_frame c c'
    end /\
    marshal_file (Some g) = marshal_file (Some f).
Proof.
  intros k r f o f' E. unfold verify_file in E.
  assert (K : forall c, exists c', Some c = Some c' /\ card_frame c c') by (intros c; exists c; split; [auto|apply frame_refl]).
  assert (SAME : forall out, (out, Some f) = (o, f') -> exists g, f' = Some g /\ file_type g = file_type f /\
    file_vu g = file_vu f /\ file_raw_card g = file_raw_card f /\
    match file_driver_card f with
    | None => file_driver_card g = None
    | Some c => exists c', file_driver_card g = Some c' /\ card_frame c c'
    end /\ marshal_file (Some g) = marshal_file (Some f)).
  { intros out Q. injection Q as _ <-. exists f. repeat (split; [reflexivity|]). split; [|reflexivity].
    destruct (file_driver_card f) as [c|]; auto. }
  destruct (Z.eqb_spec (file_type f) FILE_DRIVER_CARD) as [T|T].
  - destruct (file_driver_card f) as [c|] eqn:C; [|now apply SAME in E].
    destruct (verify_driver_card k (Some r) c) as [out c'] eqn:V. injection E as _ <-.
    pose proof (verify_driver_frame k (Some r) c) as F. rewrite V in F. cbn [snd] in F.
    eexists. split; [reflexivity|]. cbn [file_type file_vu file_raw_card file_driver_card].
    repeat (split; [reflexivity|]). split; [eauto|].
    unfold marshal_file. cbn [file_type file_vu file_raw_card file_driver_card]. rewrite T, C. cbn [Z.eqb Pos.eqb FILE_DRIVER_CARD].
    now apply marshal_frame.
  - destruct ((file_type f =? FILE_VEHICLE_UNIT) || (file_type f =? FILE_RAW_CARD)); now apply SAME in E.
Qed.
Print Assumptions C59_frame.

(** * C54: verification only succeeds with an authentic card certificate *)

Definition driver_file (c : driver_card) : file := mkFile FILE_DRIVER_CARD None (Some c) None.

Lemma verify_driver_file k r c : fst (verify_file k r (Some (driver_file c))) = fst (verify_driver_card k (Some r) c).
Proof.
  unfold verify_file, driver_file. cbn [file_type file_driver_card file_vu file_raw_card].
  change (FILE_DRIVER_CARD =? FILE_DRIVER_CARD) with true. cbn [fst].
  destruct (verify_driver_card k (Some r) c) as [o c']. reflexivity.
Qed.

Lemma verify_gen1_present k r c : fst (verify_gen1 k r c) = Ok tt -> exists x, card_certificate c = Some x.
Proof. unfold verify_gen1. destruct (card_certificate c); [eauto|discriminate]. Qed.

Lemma verify_gen2_present k r c : fst (verify_gen2 k r c) = Ok tt -> exists x, card_sign_certificate c = Some x.
Proof. unfold verify_gen2. destruct (card_sign_certificate c); [eauto|discriminate]. Qed.

Lemma sign_after k r c : option_map ecc_raw (card_sign_certificate (snd (verify_gen1 k r c))) = option_map ecc_raw (card_sign_certificate c)
  /\ card_sign_certificate (snd (verify_gen1 k r c)) = card_sign_certificate c.
Proof.
  assert (E : slot_of_card (snd (verify_gen1 k r c)) S2_sign_cert = slot_of_card c S2_sign_cert).
  { unfold verify_gen1. destruct (card_certificate c); [|reflexivity]. destruct (obtain_rsa_ca k r c r0); try reflexivity.
    destruct (verify_rsa_with_ca k r0 (Some a)) as [o x']. cbn [snd]. unfold store_rsa. now rewrite slot_set_other by discriminate. }
  unfold card_sign_certificate. now rewrite E.
Qed.

(** The outcome, in terms of the outcomes for the two applications. *)
Lemma verify_driver_ok k r c :
  fst (verify_driver_card k (Some r) c) = Ok tt <->
  (dc_has c Gen1 = true -> fst (verify_gen1 k (Some r) c) = Ok tt) /\
  (dc_has c Gen2 = true -> fst (verify_gen2 k (Some r) c) = Ok tt).
Proof.
  unfold verify_driver_card.
  assert (H : forall o c1, (if dc_has c Gen1 then verify_gen1 k (Some r) c else (Ok tt, c)) = (o, c1) ->
    dc_has c1 Gen2 = dc_has c Gen2 /\ card_sign_certificate c1 = card_sign_certificate c).
  { intros o c1 E. destruct (dc_has c Gen1).
    - pose proof (verify_gen1_frame k (Some r) c) as (F & _). pose proof (sign_after k (Some r) c) as (_ & G). rewrite E in F, G. auto.
    - injection E as _ <-. auto. }
  destruct (if dc_has c Gen1 then verify_gen1 k (Some r) c else (Ok tt, c)) as [o c1] eqn:E.
  destruct (H o c1 eq_refl) as (H1 & H2).
  assert (G : fst (verify_gen2 k (Some r) c1) = fst (verify_gen2 k (Some r) c)).
  { unfold verify_gen2. rewrite H2. destruct (card_sign_certificate c) as [x|]; auto. cbn [obtain_ecc_ca].
    destruct (get_ecc r (ecc_car x)) as [ca|?|]; auto. destruct (verify_ecc k x ca); reflexivity. }
  rewrite H1. destruct (dc_has c Gen1).
  - rewrite E. cbn [fst]. destruct o as [[]|?|].
    + destruct (dc_has c Gen2); [rewrite G|cbn [fst]]; (split; [intros; split; auto; discriminate|intros [_ W]; auto]).
    + cbn [fst]. split; [discriminate|]. intros [W _]. now specialize (W eq_refl).
    + cbn [fst]. split; [discriminate|]. intros [W _]. now specialize (W eq_refl).
  - injection E as <- _. destruct (dc_has c Gen2); [rewrite G|cbn [fst]]; (split; [intros; split; auto; discriminate|intros [_ W]; auto]).
Qed.

Lemma rsa_from_dump cm us c x : Forall dumped_ok us -> accepted cm us c -> card_certificate c = Some x ->
  exists a u b, us = a ++ u :: b /\ u_fid u = 0xC100 /\ u_gen2 u = false /\
    Forall (fun v => u_fid v <> 0xC100) b /\ rsa_raw x = u_val u /\ rsa_car x = dec (be (sub (u_val u) 186 8)) /\
    length (u_val u) = 194%nat /\ bytes_ok (u_val u).
Proof.
  intros V A X. apply accepted_iff in A as (os & _ & D & G & ->); auto. unfold card_certificate, rsa_of in X.
  destruct (slot_of_card (card_of os) S_card_cert) as [[y g]|] eqn:E; [|discriminate]. cbn in X. injection X as ->.
  destruct (card_some cm us os S_card_cert (x, g) G E) as (a & u & b & -> & U & N & _ & P & _). exists a, u, b. split; auto.
  assert (K : u_fid u = 0xC100 /\ u_gen2 u = false).
  { assert (I : In (u_fid u) driver_fids) by (apply Forall_app in D as [_ D]; now apply Forall_cons_iff in D as [D _]).
    unfold u_field in U. clear - U I. revert U. destruct (u_gen2 u).
    - repeat destruct I as [<-|I]; try discriminate. destruct I.
    - repeat destruct I as [<-|I]; try discriminate; auto. destruct I. }
  destruct K as [K1 K2]. split; auto. split; auto.
  cbn [fst] in P. change (unmarshal_rsa (u_val u) = Ok x) in P. unfold unmarshal_rsa in P. apply bind_ok in P as ([] & L & P).
  apply guard_ok, Nat.eqb_eq in L. apply Ok_inj in P. subst x. cbn [rsa_raw rsa_car].
  split.
  - apply Forall_forall. intros v I Q. apply Forall_app in D as [_ D]. apply Forall_cons_iff in D as [_ D].
    destruct (u_gen2 v) eqn:Gv.
    + apply Forall2_app_inv_l in G as (os1 & os2 & _ & G & _). inversion G as [|? ? ? ? _ G']. subst.
      apply in_split in I as (b1 & b2 & ->). apply Forall2_app_inv_l in G' as (? & ? & _ & G' & _). inversion G' as [|? ? ? ? Gv' _]. subst.
      unfold gives, u_field in Gv'. rewrite Q, Gv in Gv'. cbn in Gv'. destruct Gv' as [Gv' _].
      lia.
    + unfold none_for in N. rewrite Forall_forall in N. apply (N v I). unfold u_field. now rewrite Q, Gv.
  - repeat (split; auto). apply Forall_app in V as [_ V]. apply Forall_cons_iff in V as [V _]. apply V.
Qed.

Lemma ecc_length d x : unmarshal_ecc d = Ok x -> (204 <= length d <= 341)%nat /\ ecc_raw x = d.
Proof.
  unfold unmarshal_ecc. intros H. apply bind_ok in H as ([] & L & H). apply guard_ok in L.
  apply negb_true_iff, orb_false_iff in L as [L1 L2]. apply Nat.ltb_ge in L1, L2. split; [lia|].
  repeat match goal with
  | H : (let* (_, _) := _ in _) = Ok _ |- _ => apply bind_ok in H as ([? ?] & _ & H)
  | H : bind _ _ = Ok _ |- _ => apply bind_ok in H as (? & _ & H)
  end. apply Ok_inj in H. now subst.
Qed.

Lemma ecc_from_dump cm us c x : Forall dumped_ok us -> accepted cm us c -> card_sign_certificate c = Some x ->
  exists a u b, us = a ++ u :: b /\ u_fid u = 0xC101 /\ u_gen2 u = true /\
    Forall (fun v => u_fid v <> 0xC101) b /\ unmarshal_ecc (u_val u) = Ok x /\ bytes_ok (u_val u).
Proof.
  intros V A X. apply accepted_iff in A as (os & _ & D & G & ->); auto. unfold card_sign_certificate, ecc_of in X.
  destruct (slot_of_card (card_of os) S2_sign_cert) as [[y g]|] eqn:E; [|discriminate]. cbn in X. injection X as ->.
  destruct (card_some cm us os S2_sign_cert (x, g) G E) as (a & u & b & -> & U & N & _ & P & _). exists a, u, b. split; auto.
  assert (K : u_fid u = 0xC101 /\ u_gen2 u = true).
  { assert (I : In (u_fid u) driver_fids) by (apply Forall_app in D as [_ D]; now apply Forall_cons_iff in D as [D _]).
    unfold u_field in U. clear - U I. revert U. destruct (u_gen2 u).
    - repeat destruct I as [<-|I]; try discriminate; auto. destruct I.
    - repeat destruct I as [<-|I]; try discriminate. destruct I. }
  destruct K as [K1 K2]. split; auto. split; auto. split; [|split].
  - apply Forall_forall. intros v I Q. destruct (u_gen2 v) eqn:Gv.
    + unfold none_for in N. rewrite Forall_forall in N. apply (N v I). unfold u_field. now rewrite Q, Gv.
    + apply Forall2_app_inv_l in G as (os1 & os2 & _ & G & _). inversion G as [|? ? ? ? _ G']. subst.
      apply in_split in I as (b1 & b2 & ->). apply Forall2_app_inv_l in G' as (? & ? & _ & G' & _). inversion G' as [|? ? ? ? Gv' _]. subst.
      unfold gives, u_field in Gv'. rewrite Q, Gv in Gv'. cbn in Gv'. destruct Gv' as [Gv' _].
      lia.
  - exact P.
  - apply Forall_app in V as [_ V]. apply Forall_cons_iff in V as [V _]. apply V.
Qed.

(** Verification of a parsed driver card succeeds exactly if, for each application
    present, the dump has a card certificate whose signature verifies under the
    authority certificate that the source gives. *)
Theorem C54_authentic : forall k r cm us c, hash_bytes k -> answers_bytes r -> Forall dumped_ok us -> accepted cm us c ->
  (fst (verify_file k r (Some (driver_file c))) = Ok tt <->
   (dc_has c Gen1 = true -> exists x, card_certificate c = Some x /\ authentic1 k r x) /\
   (dc_has c Gen2 = true -> exists x, card_sign_certificate c = Some x /\ authentic2 k r x)) /\
  (forall x, card_certificate c = Some x -> exists a u b, us = a ++ u :: b /\ u_fid u = 0xC100 /\
     Forall (fun v => u_fid v <> 0xC100) b /\ rsa_raw x = u_val u) /\
  (forall x, card_sign_certificate c = Some x -> exists a u b, us = a ++ u :: b /\ u_fid u = 0xC101 /\
     Forall (fun v => u_fid v <> 0xC101) b /\ ecc_raw x = u_val u).
Proof.
  intros k r cm us c HK R V A. split; [|split].
  - rewrite verify_driver_file, verify_driver_ok. split; intros [H1 H2]; split; intros P.
    + specialize (H1 P). destruct (verify_gen1_present _ _ _ H1) as (x & X). exists x. split; auto.
      destruct (rsa_from_dump cm us c x V A X) as (a & u & b & _ & _ & _ & _ & E & _ & _ & B). apply (authentic1_iff k r c); auto. now rewrite E.
    + specialize (H2 P). destruct (verify_gen2_present _ _ _ H2) as (x & X). exists x. split; auto.
      destruct (ecc_from_dump cm us c x V A X) as (a & u & b & _ & _ & _ & _ & E & B). apply ecc_length in E as (L & E). rewrite <- E in *.
      apply (authentic2_iff k r c); auto.
    + destruct (H1 P) as (x & X & Y). destruct (rsa_from_dump cm us c x V A X) as (a & u & b & _ & _ & _ & _ & E & _ & _ & B).
      apply (authentic1_iff k r c x); auto. now rewrite E.
    + destruct (H2 P) as (x & X & Y). destruct (ecc_from_dump cm us c x V A X) as (a & u & b & _ & _ & _ & _ & E & B). apply ecc_length in E as (L & E). rewrite <- E in *.
      apply (authentic2_iff k r c x); auto.
  - intros x X. destruct (rsa_from_dump cm us c x V A X) as (a & u & b & E & F & _ & N & W & _). eauto 8.
  - intros x X. destruct (ecc_from_dump cm us c x V A X) as (a & u & b & E & F & _ & N & W & _). apply ecc_length in W as (_ & W). eauto 8.
Qed.
Print Assumptions C54_authentic.

(** ** A card whose certificates verify

    With the toy primitives of Props_Cert, whose RSA keys have the exponent 1. *)

Definition toy_key : bytes := repeat 255 128.
Definition gen1_certificate (car chr : Z) (eov : bytes) : bytes := toy_raw toy (toy_content chr eov) (to_be 8 car).
Definition gen2_certificate (to r s : bytes) : bytes :=
  sample_ecc [0; 0; 0; 0; 0; 0; 0; 42] [93; 0; 0; 0] to (repeat 1 32) (repeat 2 32) r s.
Definition gen2_car : bytes := dec (be [1; 2; 3; 4; 5; 6; 7; 8]).

Definition toy_root : bytes := to_be 8 1 ++ toy_key ++ to_be 8 1.

(** The sources of [DefaultCertificateResolver] with nothing cached; the network has
    the authority certificate 7, signed by the root, and one of the second
    generation with a bad signature. *)
Definition toy_files (root : bytes) : cert_files := mkFiles root [] [].
Definition toy_http (u : bytes) : res bytes :=
  if list_eq_dec Z.eq_dec u [47] then Ok (gen1_certificate 1 7 [255; 255; 255; 255])
  else if list_eq_dec Z.eq_dec u [48] then Ok (gen2_certificate [107; 0; 0; 0] (repeat 3 32) (repeat 4 32))
  else fail.
Definition toy_index : cert_index := mkIndex [(dec 7, [47])] [(gen2_car, [48])].
Definition toy_resolver (root : bytes) : resolver := default_resolver (toy_files root) toy_http toy_index.

Definition gen1_unit (car : Z) (eov : bytes) : dumped := mkDumped 0xC100 0 (gen1_certificate car 9 eov) None.
Definition gen2_unit (to : bytes) : dumped := mkDumped 0xC101 2 (gen2_certificate to (repeat 5 32) (repeat 5 32)) None.
Definition licence_unit (n : Z) : dumped := mkDumped 0x0521 0 (zeros 52 ++ [n]) (Some (1, zeros 128)).

Definition toy_dump (eov to : bytes) (n : Z) : list dumped :=
  [icc_unit; ic_unit; licence_unit n; gen1_unit 7 eov; gen2_unit to].

(** Dump [us] is accepted and verifies with [r]. *)
Definition verified (k : crypto) (r : resolver) (us : list dumped) (c : driver_card) : Prop :=
  Forall dumped_ok us /\ accepted no_charmap us c /\ fst (verify_file k r (Some (driver_file c))) = Ok tt.

Definition verified_b (k : crypto) (r : resolver) (us : list dumped) (p : driver_card -> bool) : bool :=
  forallb dumped_okb us &&
  match unmarshal_file no_charmap (dump us) with
  | Ok (mkFile 2 None (Some c) None) =>
      is_ok (fst (verify_file k r (Some (driver_file c)))) && p c
  | _ => false
  end.

Lemma verified_b_ok k r us p : verified_b k r us p = true -> exists c, verified k r us c /\ p c = true.
Proof.
  unfold verified_b, verified. rewrite andb_true_iff. intros [V H]. apply dumped_okb_ok in V.
  unfold accepted. destruct (unmarshal_file no_charmap (dump us)) as [[t v o w]|?|] eqn:E; try discriminate.
  destruct t as [|[?|[?|?|]|]|?]; try discriminate. destruct v; try discriminate. destruct o as [c|]; try discriminate.
  destruct w; try discriminate. apply andb_true_iff in H as [H1 H2]. exists c. split; auto. split; auto. split; auto.
  destruct (fst (verify_file k r (Some (driver_file c)))) as [[]|?|]; auto; discriminate.
Qed.

Lemma hash_toy : hash_bytes toy.
Proof. exact (proj1 C57_example). Qed.

(** What [DefaultCertificateResolver] answers are bytes if its sources are. *)
Definition sources_bytes (fs : cert_files) (http : bytes -> res bytes) : Prop :=
  bytes_ok (cf_root fs) /\ Forall (fun p => bytes_ok (snd p)) (cf_g1 fs) /\ forall u d, http u = Ok d -> bytes_ok d.

Lemma first_success_in {A} (l : list (res A)) a : first_success l = Ok a -> In (Ok a) l.
Proof.
  induction l as [|x l IH]; [discriminate|]. destruct x as [b|e|]; cbn [first_success]; try discriminate.
  - intros E. left. exact E.
  - intros E. right. auto.
Qed.

Lemma default_rsa fs http ix car a : sources_bytes fs http -> get_rsa (default_resolver fs http ix) car = Ok (Some a) ->
  exists d, bytes_ok d /\ unmarshal_rsa d = Ok a.
Proof.
  intros (B1 & B2 & B3) E. unfold default_resolver, chain in E. cbn [get_rsa] in E.
  apply first_success_in in E. cbn [map get_rsa embedded client] in E. destruct E as [E|[E|[]]].
  - unfold read_g1, read_embedded in E.
    destruct (find _ (cf_g1 fs)) as [[n d]|] eqn:F; [|discriminate]. apply find_some in F as [F _].
    unfold some_res in E. apply bind_ok in E as (y & U & E). apply Ok_inj in E. injection E as ->. exists d. split; auto.
    rewrite Forall_forall in B2. apply (B2 _ F).
  - destruct (url_of (ix_g1 ix) car) as [u|]; [|discriminate]. apply bind_ok in E as (d & H & E).
    unfold some_res in E. apply bind_ok in E as (y & U & E). apply Ok_inj in E. injection E as ->. exists d. split; eauto.
Qed.

Lemma default_root fs http ix root : get_root (default_resolver fs http ix) = Ok (Some root) -> unmarshal_root (cf_root fs) = Ok root.
Proof.
  intros E. unfold default_resolver, chain in E. cbn [get_root] in E. apply first_success_in in E.
  cbn [map get_root embedded client] in E. destruct E as [E|[E|[]]]; [|discriminate].
  unfold some_res in E. apply bind_ok in E as (y & U & E). apply Ok_inj in E. now injection E as ->.
Qed.

Lemma default_bytes fs http ix : sources_bytes fs http -> answers_bytes (default_resolver fs http ix).
Proof.
  intros S. split.
  - intros car a E. destruct (default_rsa _ _ _ _ _ S E) as (d & B & U). unfold unmarshal_rsa in U.
    apply bind_ok in U as (? & _ & U). apply Ok_inj in U. subst a. cbn. split; auto. constructor.
  - intros root E. apply default_root in E. unfold unmarshal_root in E. apply bind_ok in E as (? & _ & U). apply Ok_inj in U. subst root.
    cbn [root_n]. apply bytes_ok_sub. apply S.
Qed.

Lemma toy_sources root : bytes_ok root -> sources_bytes (toy_files root) toy_http.
Proof.
  intros B. split; auto. split; [constructor|]. intros u d E. unfold toy_http in E.
  repeat (destruct (list_eq_dec _ _ _); [apply Ok_inj in E; subst d; apply bytes_okb_ok; vm_compute; reflexivity|]). discriminate.
Qed.

Lemma toy_verified : exists c, verified toy (toy_resolver toy_root) (toy_dump [0; 0; 0; 1] [0; 0; 0; 1] 1) c /\
  (dc_has c Gen1 && dc_has c Gen2) = true.
Proof. apply verified_b_ok. vm_compute. reflexivity. Qed.

Lemma toy_root_ok : bytes_ok toy_root.
Proof. apply bytes_okb_ok. vm_compute. reflexivity. Qed.

Example C54_example : hash_bytes toy /\ answers_bytes (toy_resolver toy_root) /\ exists us c, Forall dumped_ok us /\
  accepted no_charmap us c /\ fst (verify_file toy (toy_resolver toy_root) (Some (driver_file c))) = Ok tt /\
  dc_has c Gen1 = true /\ dc_has c Gen2 = true.
Proof.
  split; [exact hash_toy|]. split; [apply default_bytes, toy_sources, toy_root_ok|].
  destruct toy_verified as (c & (V & A & O) & H). apply andb_true_iff in H. eexists. exists c. split; [exact V|]. auto.
Qed.

Example C59_example : exists us c f', Forall dumped_ok us /\ accepted no_charmap us c /\
  verify_file toy (toy_resolver toy_root) (Some (driver_file c)) = (Ok tt, f').
Proof.
  destruct toy_verified as (c & (V & A & O) & H). eexists. exists c.
  destruct (verify_file toy (toy_resolver toy_root) (Some (driver_file c))) as [o f'] eqn:E. cbn [fst] in O. subst o. eauto.
Qed.

(** * C55: verification is anchored in the European root *)

(** With the default sources, a first-generation card certificate that verifies was
    issued under a key that was itself issued by the root in the library.  Missing:
    the second generation, and sources that answer with keys filled in. *)
Theorem C55_anchored_partial : forall k fs http ix cm us c,
  hash_bytes k -> sources_bytes fs http -> Forall dumped_ok us -> accepted cm us c -> dc_has c Gen1 = true ->
  fst (verify_file k (default_resolver fs http ix) (Some (driver_file c))) = Ok tt ->
  exists x a ca content, card_certificate c = Some x /\
    length (cf_root fs) = 144%nat /\
    issued k a (dec (be (sub (cf_root fs) 0 8))) (sub (cf_root fs) 8 128) (sub (cf_root fs) 136 8) ca /\
    issued k (rsa_raw x) (dec (be (sub ca 20 8))) (sub ca 28 128) (sub ca 156 8) content.
Proof.
  intros k fs http ix cm us c HK S V A G O. pose proof (default_bytes fs http ix S) as R.
  apply (C54_authentic k _ cm us c HK R V A) in O as [O _]. destruct (O G) as (x & X & name & n & e & content & (a & GA & H) & I).
  destruct (default_rsa _ _ _ _ _ S GA) as (d & B & U). unfold unmarshal_rsa in U. apply bind_ok in U as (? & _ & U). apply Ok_inj in U. subst a.
  destruct H as [(N & _)|(_ & root & ca & GR & IR & -> & -> & ->)]; [now destruct N|].
  apply default_root in GR. unfold unmarshal_root in GR. apply bind_ok in GR as ([] & L & GR). apply guard_ok, Nat.eqb_eq in L. apply Ok_inj in GR.
  subst root. exists x, d, ca, content. auto.
Qed.
Print Assumptions C55_anchored_partial.

Example C55_example : exists us c, hash_bytes toy /\ sources_bytes (toy_files toy_root) toy_http /\ Forall dumped_ok us /\
  accepted no_charmap us c /\ dc_has c Gen1 = true /\
  fst (verify_file toy (default_resolver (toy_files toy_root) toy_http toy_index) (Some (driver_file c))) = Ok tt.
Proof.
  destruct toy_verified as (c & (V & A & O) & H). apply andb_true_iff in H as [H1 H2]. eexists. exists c.
  split; [exact hash_toy|]. split; [apply toy_sources, toy_root_ok|]. split; [exact V|]. auto.
Qed.

(** A second-generation card verifies whatever the root, with an authority
    certificate whose own signature is valid under no key at all. *)
Theorem C55_anchored_refuted : exists k http ix us c, Forall dumped_ok us /\ accepted no_charmap us c /\ dc_has c Gen2 = true /\
  (forall root, fst (verify_file k (default_resolver (mkFiles root [] []) http ix) (Some (driver_file c))) = Ok tt) /\
  exists x a, card_sign_certificate c = Some x /\
    get_ecc (default_resolver (mkFiles [] [] []) http ix) (ecc_car x) = Ok (Some a) /\ forall b, ~ ecc_signed k a b.
Proof.
  assert (H : exists c, verified toy (toy_resolver []) [icc_unit; gen2_unit [0; 0; 0; 1]] c /\
    (dc_has c Gen2 && negb (dc_has c Gen1) && match card_sign_certificate c with
      | Some x => match get_ecc (toy_resolver []) (ecc_car x) with
                  | Ok (Some a) => match ecc_sig a with Some (r, s) => negb (be r =? be s) | None => true end
                  | _ => false end
      | None => false end) = true).
  { apply verified_b_ok. vm_compute. reflexivity. }
  destruct H as (c & (V & A & O) & H). apply andb_true_iff in H as [H H2]. apply andb_true_iff in H as [H0 H1].
  exists toy, toy_http, toy_index. eexists. exists c. split; [exact V|]. split; [exact A|]. split; [exact H0|]. split.
  - intros root. rewrite verify_driver_file in *. apply negb_true_iff in H1.
    apply verify_driver_ok in O as [_ O]. apply verify_driver_ok. split; [congruence|]. intros _. exact (O H0).
  - change (get_ecc (default_resolver (mkFiles [] [] []) toy_http toy_index)) with (get_ecc (toy_resolver [])).
    clear - H2. revert H2. generalize (get_ecc (toy_resolver [])). intros ge H2.
    destruct (card_sign_certificate c) as [x|]; [|discriminate]. exists x.
    destruct (ge (ecc_car x)) as [[a|]|?|] eqn:G; try discriminate H2.
    exists a. split; [reflexivity|]. split; [reflexivity|]. intros b (? & ? & ? & ? & ? & ? & ? & r & s & _ & _ & _ & _ & _ & _ & _ & _ & E & F).
    rewrite E in H2. cbn in F. injection F as F. rewrite F in H2. discriminate.
Qed.
Print Assumptions C55_anchored_refuted.

(** * C56: verification detects altered card data *)

(** It looks at nothing but the two card certificates. *)
Theorem C56_altered_data_refuted :
  (forall k r c c', dc_has c Gen1 = dc_has c' Gen1 -> dc_has c Gen2 = dc_has c' Gen2 ->
     card_certificate c = card_certificate c' -> card_sign_certificate c = card_sign_certificate c' ->
     (fst (verify_file k r (Some (driver_file c))) = Ok tt <-> fst (verify_file k r (Some (driver_file c'))) = Ok tt)) /\
  exists k r us us' c c', verified k r us c /\ verified k r us' c' /\
    slot_of_card c S_licence <> slot_of_card c' S_licence.
Proof.
  split.
  - intros k r c c' H1 H2 X1 X2. rewrite !verify_driver_file, !verify_driver_ok, H1, H2.
    assert (E1 : fst (verify_gen1 k (Some r) c) = fst (verify_gen1 k (Some r) c')).
    { unfold verify_gen1. rewrite X1. destruct (card_certificate c') as [x|]; auto.
      change (obtain_rsa_ca k (Some r) c x) with (obtain_rsa_ca k (Some r) c' x).
      destruct (obtain_rsa_ca k (Some r) c' x) as [ca|?|]; auto. destruct (verify_rsa_with_ca k x (Some ca)); auto. }
    assert (E2 : fst (verify_gen2 k (Some r) c) = fst (verify_gen2 k (Some r) c')).
    { unfold verify_gen2. rewrite X2. destruct (card_sign_certificate c') as [x|]; auto. cbn [obtain_ecc_ca].
      destruct (get_ecc r (ecc_car x)) as [ca|?|]; auto. destruct (verify_ecc k x ca); auto. }
    now rewrite E1, E2.
  - assert (H : forall n, n = 1 \/ n = 2 -> exists c, verified toy (toy_resolver toy_root) (toy_dump [0; 0; 0; 1] [0; 0; 0; 1] n) c /\
      match slot_of_card c S_licence with Some (l, _) =>
        match append_content S_licence l with Ok d => nth 52 d 0 =? n | _ => false end | None => false end = true).
    { intros n [-> | ->]; apply verified_b_ok; vm_compute; reflexivity. }
    destruct (H 1) as (c & V & L); auto. destruct (H 2) as (c' & V' & L'); auto.
    exists toy, (toy_resolver toy_root). do 2 eexists. exists c, c'. split; [exact V|]. split; [exact V'|].
    intros E. rewrite E in L. destruct (slot_of_card c' S_licence) as [[l g]|]; [|discriminate].
    destruct (append_content S_licence l); try discriminate. apply Z.eqb_eq in L, L'. congruence.
Qed.
Print Assumptions C56_altered_data_refuted.

(** * C60: expired certificates are refused *)

Definition same_bytes (a b : bytes) : bool := if list_eq_dec Z.eq_dec a b then true else false.

Lemma same_bytes_ok a b : same_bytes a b = true -> a = b.
Proof. unfold same_bytes. destruct (list_eq_dec Z.eq_dec a b); [auto|discriminate]. Qed.

Lemma toy_issued : issued toy (gen1_certificate 7 9 [0; 0; 0; 1]) (dec 7) toy_key (to_be 8 1) (toy_content 9 [0; 0; 0; 1]).
Proof.
  split; [vm_compute; reflexivity|]. split; [vm_compute; discriminate|]. split; [vm_compute; discriminate|]. split; [vm_compute; reflexivity|].
  exists (firstn 106 (toy_content 9 [0; 0; 0; 1])).
  split; [apply bytes_okb_ok; vm_compute; reflexivity|]. split; [vm_compute; reflexivity|]. split; [vm_compute; reflexivity|].
  split; [vm_compute; reflexivity|]. right. split; [vm_compute; discriminate|vm_compute; reflexivity].
Qed.

(** Neither validity period is looked at: certificates that ended one second after
    the beginning of 1970 verify. *)
Theorem C60_expired_refuted : exists k r us c x content y, verified k r us c /\
  card_certificate c = Some x /\ (exists name n e, issued k (rsa_raw x) name n e content) /\ be (sub content 16 4) = 1 /\
  card_sign_certificate c = Some y /\ ecc_to y = Some (mkTs 1 0).
Proof.
  assert (H : exists c, verified toy (toy_resolver toy_root) (toy_dump [0; 0; 0; 1] [0; 0; 0; 1] 1) c /\
    (dc_has c Gen1 &&
     match card_certificate c with Some x => same_bytes (rsa_raw x) (gen1_certificate 7 9 [0; 0; 0; 1]) | None => false end &&
     match card_sign_certificate c with Some y => match ecc_to y with Some (mkTs 1 0) => true | _ => false end | None => false end) = true).
  { apply verified_b_ok. vm_compute. reflexivity. }
  destruct H as (c & W & H). rewrite !andb_true_iff in H. destruct H as ((H1 & H3) & H4).
  exists toy, (toy_resolver toy_root). eexists. exists c.
  destruct (card_certificate c) as [x|]; [|discriminate H3]. apply same_bytes_ok in H3.
  destruct (card_sign_certificate c) as [y|]; [|discriminate H4].
  exists x, (toy_content 9 [0; 0; 0; 1]), y. split; [exact W|]. split; [reflexivity|].
  split; [exists (dec 7), toy_key, (to_be 8 1); rewrite H3; exact toy_issued|].
  split; [vm_compute; reflexivity|]. split; [reflexivity|].
  destruct (ecc_to y) as [[t1 t2]|]; [|discriminate H4]. destruct t1 as [|[?|?|]|?]; try discriminate H4. destruct t2; try discriminate H4. reflexivity.
Qed.
Print Assumptions C60_expired_refuted.

(** * C58: verification is repeatable *)

Lemma verify_rsa_fst k x y n e name : rsa_raw x = rsa_raw y -> fst (verify_rsa k x n e name) = fst (verify_rsa k y n e name).
Proof.
  intros E. unfold verify_rsa. rewrite E. repeat match goal with |- context [if ?b then _ else _] => destruct b; [reflexivity|] end. reflexivity.
Qed.

Lemma gen1_fst k r c c' x x' : card_certificate c = Some x -> card_certificate c' = Some x' ->
  rsa_raw x' = rsa_raw x -> rsa_car x' = rsa_car x -> fst (verify_gen1 k (Some r) c') = fst (verify_gen1 k (Some r) c).
Proof.
  intros X X' R C. unfold verify_gen1. rewrite X, X'.
  assert (O : obtain_rsa_ca k (Some r) c' x' = obtain_rsa_ca k (Some r) c x) by (unfold obtain_rsa_ca; now rewrite C).
  rewrite O. destruct (obtain_rsa_ca k (Some r) c x) as [ca|?|]; auto. cbn [verify_rsa_with_ca].
  pose proof (verify_rsa_fst k x' x (rsa_n ca) (rsa_e ca) (rsa_chr ca) R) as F.
  destruct (verify_rsa k x' _ _ _), (verify_rsa k x _ _ _). exact F.
Qed.

Definition mark (x : ecc_cert) (v : option bool) : ecc_cert :=
  mkEcc (ecc_cpi x) (ecc_car x) (ecc_cha x) (ecc_pk x) (ecc_chr x) (ecc_from x) (ecc_to x) (ecc_sig x) v (ecc_raw x).

Lemma verify_ecc_fst k x v a : fst (verify_ecc k (mark x v) a) = fst (verify_ecc k x a).
Proof.
  unfold verify_ecc. change (ecc_prepare k (mark x v) a) with (ecc_prepare k x a).
  destruct (ecc_prepare k x a) as [[[[h cv] px] py]|?|]; auto. change (ecc_sig (mark x v)) with (ecc_sig x).
  destruct (ecc_sig x) as [[s1 s2]|]; auto. destruct (ecdsa _ _ _ _ _ _ _) as [[]|]; auto.
Qed.

Lemma gen2_fst k r c c' x v : card_sign_certificate c = Some x -> card_sign_certificate c' = Some (mark x v) ->
  fst (verify_gen2 k (Some r) c') = fst (verify_gen2 k (Some r) c).
Proof.
  intros X X'. unfold verify_gen2. rewrite X, X'. cbn [obtain_ecc_ca]. change (ecc_car (mark x v)) with (ecc_car x).
  destruct (get_ecc r (ecc_car x)) as [ca|?|]; auto. pose proof (verify_ecc_fst k x v ca) as F.
  destruct (verify_ecc k (mark x v) ca), (verify_ecc k x ca). exact F.
Qed.

Lemma gen2_same k r c c' : card_sign_certificate c' = card_sign_certificate c ->
  fst (verify_gen2 k (Some r) c') = fst (verify_gen2 k (Some r) c).
Proof.
  intros E. destruct (card_sign_certificate c) as [x|] eqn:X.
  - apply (gen2_fst k r c c' x (ecc_valid x)); auto. rewrite E. destruct x. reflexivity.
  - unfold verify_gen2. now rewrite E, X.
Qed.

Lemma verify_driver_fst k r c : fst (verify_driver_card k (Some r) c) =
  let* _ := if dc_has c Gen1 then fst (verify_gen1 k (Some r) c) else Ok tt in
  if dc_has c Gen2 then fst (verify_gen2 k (Some r) c) else Ok tt.
Proof.
  unfold verify_driver_card.
  destruct (if dc_has c Gen1 then verify_gen1 k (Some r) c else (Ok tt, c)) as [o c1] eqn:E.
  assert (H : dc_has c1 Gen2 = dc_has c Gen2 /\ card_sign_certificate c1 = card_sign_certificate c /\
    o = if dc_has c Gen1 then fst (verify_gen1 k (Some r) c) else Ok tt).
  { destruct (dc_has c Gen1).
    - pose proof (verify_gen1_frame k (Some r) c) as (F & _). pose proof (sign_after k (Some r) c) as (_ & G). rewrite E in *. auto.
    - injection E as <- <-. auto. }
  destruct H as (H1 & H2 & H3). rewrite <- H3, H1. destruct o as [[]|?|]; try reflexivity. cbn [bind].
  destruct (dc_has c Gen2); [now apply gen2_same|reflexivity].
Qed.

Lemma sign_frame c c' : card_frame c c' ->
  match card_sign_certificate c with
  | None => card_sign_certificate c' = None
  | Some x => exists v, card_sign_certificate c' = Some (mark x v)
  end.
Proof.
  intros (_ & _ & _ & F). unfold card_sign_certificate, ecc_of. destruct (slot_of_card c S2_sign_cert) as [[x g]|]; cbn [option_map fst].
  - destruct F as (v & ->). exists v. reflexivity.
  - now rewrite F.
Qed.

Lemma verify_rsa_car k x n e name : hash_bytes k -> bytes_ok (rsa_raw x) -> bytes_ok n ->
  rsa_car (snd (verify_rsa k x n e name)) = rsa_car x \/
  exists content, issued k (rsa_raw x) name n e content /\ rsa_car (snd (verify_rsa k x n e name)) = dec (be (sub content 1 8)).
Proof.
  intros HK B N. destruct (verify_rsa_cases k x n e name HK B N) as [(L & [K1 K2] & C & content & G & R)|[(W & R)|(L & KP & W & R)]]; rewrite R; auto.
  right. exists content. split; [|reflexivity]. repeat split; auto.
Qed.

(** The reference inside a card certificate is the one outside. *)
Definition consistent (k : crypto) (r : resolver) (c : driver_card) : Prop :=
  forall x name n e content, card_certificate c = Some x -> authority k r (rsa_car x) name n e ->
    issued k (rsa_raw x) name n e content -> dec (be (sub content 1 8)) = rsa_car x.

(** Missing: certificates whose signed content names another authority than the
    unsigned reference at their end; the first verification replaces the one by the
    other. *)
Theorem C58_repeatable_partial : forall k r cm us c o f', hash_bytes k -> answers_bytes r ->
  Forall dumped_ok us -> accepted cm us c -> consistent k r c ->
  verify_file k r (Some (driver_file c)) = (o, f') -> fst (verify_file k r f') = o.
Proof.
  intros k r cm us c o f' HK R V A C E.
  pose proof (verify_driver_file k r c) as Fo. rewrite E in Fo. cbn [fst] in Fo.
  unfold verify_file, driver_file in E. cbn [file_type file_driver_card file_vu file_raw_card] in E.
  change (FILE_DRIVER_CARD =? FILE_DRIVER_CARD) with true in E. cbv iota in E.
  destruct (verify_driver_card k (Some r) c) as [out c1] eqn:D. injection E as -> <-.
  change (mkFile FILE_DRIVER_CARD None (Some c1) None) with (driver_file c1). rewrite verify_driver_file, Fo, <- D. clear Fo.
  pose proof (verify_driver_frame k (Some r) c) as F. rewrite D in F. cbn [snd] in F.
  rewrite !verify_driver_fst. pose proof F as (Fh & Fs & F1 & F2). rewrite !Fh.
  assert (G2 : fst (verify_gen2 k (Some r) c1) = fst (verify_gen2 k (Some r) c)).
  { pose proof (sign_frame c c1 F) as S. destruct (card_sign_certificate c) as [x|] eqn:X.
    - destruct S as (v & S). now apply (gen2_fst k r c c1 x v).
    - apply gen2_same. congruence. }
  rewrite G2. f_equal. destruct (dc_has c Gen1) eqn:H1; auto.
  (* the certificate after the first time *)
  assert (S1 : slot_of_card c1 S_card_cert = slot_of_card (snd (verify_gen1 k (Some r) c)) S_card_cert).
  { unfold verify_driver_card in D. rewrite H1 in D. destruct (verify_gen1 k (Some r) c) as [o1 c2]. cbn [snd].
    destruct o1 as [[]|?|]; try (injection D as _ <-; reflexivity).
    destruct (dc_has c2 Gen2); [|injection D as _ <-; reflexivity].
    unfold verify_gen2 in D. destruct (card_sign_certificate c2); [|injection D as _ <-; reflexivity].
    destruct (obtain_ecc_ca (Some r) c2 e); try (injection D as _ <-; reflexivity).
    destruct (verify_ecc k e a) as [? ?]. injection D as _ <-. unfold store_ecc. now rewrite slot_set_other by discriminate. }
  destruct (card_certificate c) as [x|] eqn:X.
  2: { unfold verify_gen1 in S1 |- *. rewrite X in S1 |- *. cbn [snd] in S1. unfold card_certificate in *. rewrite S1, X. reflexivity. }
  destruct (rsa_from_dump cm us c x V A X) as (ua & u & ub & _ & _ & _ & _ & EX & _ & _ & B). rewrite <- EX in B.
  assert (X1 : exists x1, card_certificate c1 = Some x1 /\ rsa_raw x1 = rsa_raw x /\ rsa_car x1 = rsa_car x).
  { unfold card_certificate in *. rewrite S1. unfold verify_gen1, card_certificate. rewrite X.
    destruct (obtain_rsa_ca k (Some r) c x) as [ca|?|] eqn:O; try (exists x; cbn [snd]; now rewrite X).
    apply obtain_ok in O as (O & N); auto. cbn [verify_rsa_with_ca].
    pose proof (verify_rsa_raw k x (rsa_n ca) (rsa_e ca) (rsa_chr ca)) as Rr.
    pose proof (verify_rsa_car k x (rsa_n ca) (rsa_e ca) (rsa_chr ca) HK B N) as Rc.
    destruct (verify_rsa k x (rsa_n ca) (rsa_e ca) (rsa_chr ca)) as [o1 x1]. cbn [snd] in *. unfold store_rsa. rewrite slot_set_same.
    exists x1. split; [reflexivity|]. split; auto. destruct Rc as [Rc|(content & I & Rc)]; auto. rewrite Rc.
    apply (C x (rsa_chr ca) (rsa_n ca) (rsa_e ca) content); auto. }
  destruct X1 as (x1 & X1 & X2 & X3). now apply (gen1_fst k r c c1 x x1).
Qed.
Print Assumptions C58_repeatable_partial.

(** The toy certificates name authority 7 inside; this one is also called so outside. *)
Example C58_example : hash_bytes toy /\ answers_bytes (toy_resolver toy_root) /\ exists us c, Forall dumped_ok us /\
  accepted no_charmap us c /\ consistent toy (toy_resolver toy_root) c /\ dc_has c Gen1 = true.
Proof.
  split; [exact hash_toy|]. split; [apply default_bytes, toy_sources, toy_root_ok|].
  assert (H : exists c, verified toy (toy_resolver toy_root) (toy_dump [0; 0; 0; 1] [0; 0; 0; 1] 1) c /\
    (dc_has c Gen1 && match snd (verify_file toy (toy_resolver toy_root) (Some (driver_file c))) with
     | Some f => match file_driver_card f with Some c' => match card_certificate c, card_certificate c' with
         | Some x, Some y => same_bytes (rsa_car x) (rsa_car y)
         | _, _ => false end | None => false end | None => false end) = true).
  { apply verified_b_ok. vm_compute. reflexivity. }
  destruct H as (c & (V & A & O) & H). apply andb_true_iff in H as [H1 H2]. eexists. exists c. split; [exact V|]. split; [exact A|].
  split; [|exact H1]. intros x name n e content X AU I.
  assert (R : answers_bytes (toy_resolver toy_root)) by apply default_bytes, toy_sources, toy_root_ok.
  revert R AU H2. generalize (toy_resolver toy_root). intros r R AU H2.
  destruct (ok_obtain toy r c x name n e hash_toy R AU) as (ca & OB & <- & <- & <-).
  pose proof (obtain_ok toy r c x ca hash_toy R OB) as (_ & N).
  destruct (rsa_from_dump no_charmap _ c x V A X) as (ua & u & ub & _ & _ & _ & _ & EX & _ & _ & B). rewrite <- EX in B.
  assert (VR : verify_rsa toy x (rsa_n ca) (rsa_e ca) (rsa_chr ca) = (Ok tt, rsa_filled x content))
    by (apply verify_rsa_ok; [exact hash_toy|exact B|exact N|eauto]).
  assert (G : snd (verify_gen1 toy (Some r) c) = store_rsa c (rsa_filled x content))
    by (unfold verify_gen1; rewrite X, OB; cbn [verify_rsa_with_ca]; rewrite VR; reflexivity).
  unfold verify_file, driver_file in H2. cbn [file_type file_driver_card file_vu file_raw_card] in H2.
  change (FILE_DRIVER_CARD =? FILE_DRIVER_CARD) with true in H2. cbv iota in H2.
  assert (S1 : card_certificate (snd (verify_driver_card toy (Some r) c)) = Some (rsa_filled x content)).
  { unfold verify_driver_card. rewrite H1. destruct (verify_gen1 toy (Some r) c) as [o1 c2]. cbn [snd] in G. subst c2.
    assert (Q : forall y, card_certificate (store_rsa c y) = Some y) by (intros y; unfold card_certificate, store_rsa; rewrite slot_set_same; reflexivity).
    destruct o1 as [[]|?|]; try apply Q. destruct (dc_has _ Gen2); [|apply Q].
    unfold verify_gen2. destruct (card_sign_certificate _) as [y|]; [|apply Q].
    destruct (obtain_ecc_ca (Some r) _ y) as [a|?|]; try apply Q.
    destruct (verify_ecc toy y a) as [? ?]. unfold card_certificate at 1, store_ecc. cbn [snd]. rewrite slot_set_other by discriminate. apply Q. }
  destruct (verify_driver_card toy (Some r) c) as [out c1]. cbn [snd file_driver_card] in S1, H2.
  rewrite X, S1 in H2. apply same_bytes_ok in H2. rewrite H2. reflexivity.
Qed.

Definition source5 : resolver :=
  mkResolver fail
    (fun car => if same_bytes car (dec 5) then Ok (Some (mkRsa (dec 5) [] None toy_key (to_be 8 1) [] None)) else fail)
    (fun _ => fail).

Theorem C58_repeatable_refuted : exists k r us c f', Forall dumped_ok us /\ accepted no_charmap us c /\
  verify_file k r (Some (driver_file c)) = (Ok tt, f') /\ exists e, fst (verify_file k r f') = Err e.
Proof.
  assert (H : exists c, verified toy source5 [icc_unit; gen1_unit 5 [255; 255; 255; 255]] c /\
    match fst (verify_file toy source5 (snd (verify_file toy source5 (Some (driver_file c))))) with Err _ => true | _ => false end = true).
  { apply verified_b_ok. vm_compute. reflexivity. }
  destruct H as (c & (V & A & O) & H). exists toy, source5. eexists. exists c.
  destruct (verify_file toy source5 (Some (driver_file c))) as [o f'] eqn:E. cbn [fst snd] in O, H. subst o. exists f'.
  split; [exact V|]. split; [exact A|]. split; [reflexivity|].
  destruct (fst (verify_file toy source5 f')) as [?|e|]; try discriminate H. eauto.
Qed.
Print Assumptions C58_repeatable_refuted.

(** * C61: resolver chains try sources in order *)

Definition fails {A} (x : res A) : Prop := exists e, x = Err e.

Lemma first_success_app {A} (a b : list (res A)) : Forall fails a -> first_success (a ++ b) = first_success b.
Proof. intros F. induction F as [|x a [e ->] F IH]; auto. Qed.

Lemma first_success_cases {A} (l : list (res A)) :
  (Forall fails l /\ first_success l = fail) \/
  exists a x b, l = a ++ x :: b /\ Forall fails a /\ ~ fails x /\ first_success l = x.
Proof.
  induction l as [|x l IH]; [left; split; [constructor|reflexivity]|].
  destruct x as [v|e|].
  - right. exists [], (Ok v), l. repeat split; auto. intros [e E]. discriminate.
  - destruct IH as [[F E]|(a & y & b & -> & F & N & E)].
    + left. split; [constructor; [now exists e|auto]|exact E].
    + right. exists (Err e :: a), y, b. repeat split; auto. constructor; auto. now exists e.
  - right. exists [], Panic, l. repeat split; auto. intros [e E]. discriminate.
Qed.

(** A request to a source. *)
Inductive request := Root | Rsa (chr : bytes) | Ecc (chr : bytes).
Inductive answer := ARoot (x : option root_cert) | ARsa (x : option rsa_cert) | AEcc (x : option ecc_cert).
Definition res_map {A B} (f : A -> B) (x : res A) : res B := let* a := x in Ok (f a).
Definition ask (r : resolver) (q : request) : res answer :=
  match q with
  | Root => res_map ARoot (get_root r)
  | Rsa chr => res_map ARsa (get_rsa r chr)
  | Ecc chr => res_map AEcc (get_ecc r chr)
  end.

Lemma first_success_map {A B} (f : A -> B) l : res_map f (first_success l) = first_success (map (res_map f) l).
Proof. induction l as [|x l IH]; auto. destruct x; auto. Qed.

Lemma ask_chain rs q : ask (chain rs) q = first_success (map (fun r => ask r q) rs).
Proof. destruct q; cbn [ask chain get_root get_rsa get_ecc]; rewrite first_success_map, map_map; reflexivity. Qed.

Theorem C61_chain :
  (* the first source that succeeds, whatever comes behind it *)
  (forall q a r b x, Forall (fun s => fails (ask s q)) a -> ask r q = Ok x -> ask (chain (a ++ r :: b)) q = Ok x) /\
  (forall q rs x, ask (chain rs) q = Ok x -> exists a r b, rs = a ++ r :: b /\ Forall (fun s => fails (ask s q)) a /\ ask r q = Ok x) /\
  (* fails exactly if all fail *)
  (forall q rs, fails (ask (chain rs) q) <-> Forall (fun s => fails (ask s q)) rs) /\
  (* nesting *)
  (forall q a b c, ask (chain (a ++ chain b :: c)) q = ask (chain (a ++ b ++ c)) q).
Proof.
  split; [|split; [|split]].
  - intros q a r b x F E. rewrite ask_chain, map_app. cbn [map]. rewrite first_success_app by now apply Forall_map. now rewrite E.
  - intros q rs x E. rewrite ask_chain in E. destruct (first_success_cases (map (fun r => ask r q) rs)) as [[_ G]|(a & y & b & M & F & N & G)].
    + rewrite E in G. discriminate.
    + apply map_eq_app in M as (a' & b' & -> & Ea & Eb). destruct b' as [|r b']; [discriminate|]. cbn [map] in Eb. injection Eb as Er Eb.
      exists a', r, b'. split; auto. split; [rewrite <- Ea in F; now rewrite Forall_map in F|]. congruence.
  - intros q rs. rewrite ask_chain. destruct (first_success_cases (map (fun r => ask r q) rs)) as [[F G]|(a & y & b & M & F & N & G)].
    + rewrite G. rewrite Forall_map in F. split; auto. intros _. now exists EOther.
    + rewrite G. split; [contradiction|]. intros W. exfalso. apply N. rewrite <- Forall_map in W. rewrite M in W.
      apply Forall_app in W as [_ W]. now apply Forall_cons_iff in W as [W _].
  - intros q a b c. rewrite !ask_chain, !map_app. cbn [map]. rewrite ask_chain.
    generalize (map (fun r => ask r q) a), (map (fun r => ask r q) b), (map (fun r => ask r q) c). clear. intros a b c.
    induction a as [|x a IH]; cbn [List.app first_success]; [|destruct x; auto].
    destruct (first_success_cases b) as [[F E]|(p & y & s & -> & F & N & E)]; rewrite E.
    + rewrite first_success_app by auto. reflexivity.
    + rewrite <- app_assoc. rewrite first_success_app by auto. cbn [List.app first_success]. destruct y; auto. exfalso. apply N. now exists e.
Qed.
Print Assumptions C61_chain.

Example C61_example : Forall (fun s => fails (ask s (Rsa (dec 5)))) [embedded (mkFiles [] [] [])] /\ exists x, ask source5 (Rsa (dec 5)) = Ok x.
Proof.
  split; [|eexists; vm_compute; reflexivity]. apply Forall_cons; [|constructor]. exists EOther. vm_compute. reflexivity.
Qed.

(** * C67: the authority certificates in the library are found *)

Lemma dec_head v : 0 <= v -> exists h t, dec v = h :: t /\ 48 <= h <= 57.
Proof.
  intros H. unfold dec. destruct (itoa_spec v H) as (D & _). assert (N : itoa v <> []).
  { unfold itoa. cbn [itoa_fuel]. destruct (v <? 10); [discriminate|]. intros E. apply app_eq_nil in E as [_ E]. discriminate. }
  destruct (itoa v) as [|d l]; [now destruct N|]. exists (48 + d), (map (Z.add 48) l). split; auto.
  apply Forall_cons_iff in D as [D _]. lia.
Qed.

Lemma not_embedded dir files v : 0 <= v -> hd 0 dir = 103 -> read_embedded dir files (dec v ++ bin_suffix) = None.
Proof.
  intros H G. unfold read_embedded. destruct (find _ files) as [[n d]|] eqn:F; auto. apply find_some in F as [_ F].
  destruct (list_eq_dec _ _ _) as [E|]; [|discriminate]. exfalso. destruct (dec_head v H) as (h & t & D & R). rewrite D in E.
  destruct dir as [|x dir]; [discriminate G|]. cbn in G, E. subst x. injection E as E _. lia.
Qed.

(** Parsed references are decimal numbers; with them the default sources answer what
    the network answers.  Missing: any use of the files in the library. *)
Theorem C67_embedded_partial : forall fs http ix v, 0 <= v ->
  get_rsa (default_resolver fs http ix) (dec v) = first_success [get_rsa (client http ix) (dec v)] /\
  get_ecc (default_resolver fs http ix) (dec v) = first_success [get_ecc (client http ix) (dec v)] /\
  (forall root, unmarshal_root (cf_root fs) = Ok root -> get_root (default_resolver fs http ix) = Ok (Some root)).
Proof.
  intros fs http ix v H. unfold default_resolver, chain. cbn [get_rsa get_ecc get_root map embedded]. unfold read_g1, read_g2.
  rewrite !not_embedded by auto. split; [reflexivity|]. split; [reflexivity|]. intros root ->. reflexivity.
Qed.
Print Assumptions C67_embedded_partial.

Theorem C67_embedded_refuted :
  (forall fs v, 0 <= v -> fails (get_rsa (embedded fs) (dec v)) /\ fails (get_ecc (embedded fs) (dec v))) /\
  exists fs v d x, 0 <= v /\ In (dec v ++ [46; 98; 105; 110], d) (cf_g1 fs) /\ unmarshal_rsa d = Ok x.
Proof.
  split.
  - intros fs v H. cbn [embedded get_rsa get_ecc]. unfold read_g1, read_g2. rewrite !not_embedded by auto. split; now exists EOther.
  - exists (mkFiles [] [(dec 7 ++ bin_suffix, gen1_certificate 1 7 [255; 255; 255; 255])] []), 7. do 2 eexists.
    split; [lia|]. split; [left; reflexivity|]. vm_compute. reflexivity.
Qed.
Print Assumptions C67_embedded_refuted.

(** What the library's files answer to: the reference that is the path of the file in
    its directory, without the suffix; first-generation files to RSA requests and
    second-generation ones to ECC requests. *)
Definition file_at (dir : bytes) (files : list (bytes * bytes)) (reference content : bytes) : Prop :=
  exists a name b, files = a ++ (name, content) :: b /\ reference ++ [46; 98; 105; 110] = dir ++ [47] ++ name /\
    Forall (fun p => fst p <> name) a.

Lemma read_file_at dir files r d : read_embedded dir files (r ++ bin_suffix) = Some d <-> file_at dir files r d.
Proof.
  unfold read_embedded, file_at. change [46; 98; 105; 110] with bin_suffix. induction files as [|[n e] files IH]; cbn [find fst].
  - split; [discriminate|]. intros (a & n & b & E & _). now destruct a.
  - destruct (list_eq_dec Z.eq_dec (r ++ bin_suffix) (dir ++ 47 :: n)) as [E|E].
    + split.
      * intros Q. injection Q as <-. exists [], n, files. auto.
      * intros (a & m & b & Q & M & A). destruct a as [|p a]; [injection Q as _ <- _; reflexivity|].
        injection Q as <- _. apply Forall_cons_iff in A as [A _]. destruct A. cbn [fst].
        rewrite E in M. apply app_inv_head in M. now injection M.
    + rewrite IH. split.
      * intros (a & m & b & -> & M & A). exists ((n, e) :: a), m, b. split; [reflexivity|]. split; [exact M|].
        constructor; [|exact A]. cbn [fst]. intros ->. now apply E.
      * intros (a & m & b & Q & M & A). destruct a as [|p a].
        { injection Q as <- <- <-. now destruct E. }
        injection Q as <- ->. apply Forall_cons_iff in A as [_ A]. eauto 10.
Qed.

Theorem C67_lookup : forall fs reference x x',
  (get_rsa (embedded fs) reference = Ok x <->
   exists d c, file_at [103; 49] (cf_g1 fs) reference d /\ unmarshal_rsa d = Ok c /\ x = Some c) /\
  (get_ecc (embedded fs) reference = Ok x' <->
   exists d c, file_at [103; 50] (cf_g2 fs) reference d /\ unmarshal_ecc d = Ok c /\ x' = Some c).
Proof.
  intros fs r x x'. cbn [embedded get_rsa get_ecc]. unfold read_g1, read_g2. split.
  - destruct (read_embedded dir_g1 (cf_g1 fs) (r ++ bin_suffix)) as [d|] eqn:E.
    + split.
      * intros Q. apply bind_ok in Q as (c & U & Q). apply Ok_inj in Q. exists d, c. split; [now apply read_file_at|auto].
      * intros (d' & c & F & U & ->). apply read_file_at in F. unfold dir_g1 in E. rewrite F in E. injection E as ->.
        unfold some_res. now rewrite U.
    + split; [discriminate|]. intros (d' & c & F & _). apply read_file_at in F. unfold dir_g1 in E. congruence.
  - destruct (read_embedded dir_g2 (cf_g2 fs) (r ++ bin_suffix)) as [d|] eqn:E.
    + split.
      * intros Q. apply bind_ok in Q as (c & U & Q). apply Ok_inj in Q. exists d, c. split; [now apply read_file_at|auto].
      * intros (d' & c & F & U & ->). apply read_file_at in F. unfold dir_g2 in E. rewrite F in E. injection E as ->.
        unfold some_res. now rewrite U.
    + split; [discriminate|]. intros (d' & c & F & _). apply read_file_at in F. unfold dir_g2 in E. congruence.
Qed.
Print Assumptions C67_lookup.

Example C67_example :
  exists x, get_rsa (embedded (mkFiles [] [([55; 46; 98; 105; 110], gen1_certificate 1 7 [255; 255; 255; 255])] []))
    (dir_g1 ++ [47] ++ dec 7) = Ok (Some x) /\ rsa_car x = dec 1.
Proof. eexists. vm_compute. split; reflexivity. Qed.

(** * C68: a successful verification has verified something *)

(** Missing: files without any application, vehicle unit files, raw card files. *)
Theorem C68_something_verified_partial : forall k r cm us c, hash_bytes k -> answers_bytes r -> Forall dumped_ok us -> accepted cm us c ->
  dc_has c Gen1 = true \/ dc_has c Gen2 = true -> fst (verify_file k r (Some (driver_file c))) = Ok tt ->
  (exists x, card_certificate c = Some x /\ authentic1 k r x) \/ (exists x, card_sign_certificate c = Some x /\ authentic2 k r x).
Proof.
  intros k r cm us c HK R V A H O. apply (C54_authentic k r cm us c HK R V A) in O as [O1 O2]. destruct H as [H|H]; auto.
Qed.
Print Assumptions C68_something_verified_partial.

(** Whatever the source, and without ever asking it. *)
Theorem C68_something_verified_refuted :
  exists us c, Forall dumped_ok us /\ accepted no_charmap us c /\ card_certificate c = None /\ card_sign_certificate c = None /\
    forall k r, verify_file k r (Some (driver_file c)) = (Ok tt, Some (driver_file c)).
Proof.
  assert (H : exists c, verified toy source5 [icc_unit; ic_unit] c /\ (negb (dc_has c Gen1) && negb (dc_has c Gen2)) = true).
  { apply verified_b_ok. vm_compute. reflexivity. }
  destruct H as (c & (V & A & _) & H). apply andb_true_iff in H as [H1 H2]. apply negb_true_iff in H1, H2.
  eexists. exists c. split; [exact V|]. split; [exact A|].
  split; [unfold card_certificate, slot_of_card; cbn [slot_app]; now rewrite H1|].
  split; [unfold card_sign_certificate, slot_of_card; cbn [slot_app]; now rewrite H2|].
  intros k r. unfold verify_file, driver_file. cbn [file_type file_driver_card file_vu file_raw_card].
  change (FILE_DRIVER_CARD =? FILE_DRIVER_CARD) with true. cbv iota. unfold verify_driver_card. rewrite H1, H2. reflexivity.
Qed.
Print Assumptions C68_something_verified_refuted.

(** Whatever is read as a vehicle unit file or a raw card file passes without a look at
    it. *)
Theorem C68_unchecked_types_refuted :
  (forall cm d f k r, unmarshal_file cm d = Ok f -> file_driver_card f = None -> verify_file k r (Some f) = (Ok tt, Some f)) /\
  (exists cm d f, unmarshal_file cm d = Ok f /\ file_type f = 1) /\
  (exists cm d f, unmarshal_file cm d = Ok f /\ file_type f = 6).
Proof.
  split; [|split].
  - intros cm d f k r U N. unfold unmarshal_file in U.
    destruct (_ <? _)%nat; [discriminate U|]. destruct (nth 0 d 0 =? 0x76).
    { apply bind_ok in U as (v & _ & U). apply Ok_inj in U. now subst f. }
    destruct (_ =? _); [|discriminate U]. apply bind_ok in U as (rs & _ & U).
    destruct (_ =? _); [|apply Ok_inj in U; now subst f].
    apply bind_ok in U as (c & _ & U). apply Ok_inj in U. subst f. discriminate N.
  - exists (fun _ b => b), [0x76; 0x00; 0; 0]. eexists.
    split; [vm_compute; reflexivity|reflexivity].
  - exists (fun _ b => b), [0; 2; 1; 0; 1; 7]. eexists. split; [vm_compute; reflexivity|reflexivity].
Qed.
Print Assumptions C68_unchecked_types_refuted.

(** * C69: without a source the card's own authority certificates are used *)

Lemma ca_from_dump cm us c a : Forall dumped_ok us -> accepted cm us c -> card_ca_certificate c = Some a -> rsa_n a = [].
Proof.
  intros V A X. apply accepted_iff in A as (os & _ & D & G & ->); auto. unfold card_ca_certificate, rsa_of in X.
  destruct (slot_of_card (card_of os) S_ca_cert) as [[y g]|] eqn:E; [|discriminate]. cbn in X. injection X as ->.
  destruct (card_some cm us os S_ca_cert (a, g) G E) as (p & u & b & -> & U & N & _ & P & _).
  change (unmarshal_rsa (u_val u) = Ok a) in P. unfold unmarshal_rsa in P. apply bind_ok in P as (? & _ & P). apply Ok_inj in P. now subst a.
Qed.

(** Second generation only. *)
Theorem C69_own_authority_partial : forall k cm us c, Forall dumped_ok us -> accepted cm us c ->
  dc_has c Gen1 = false -> dc_has c Gen2 = true ->
  (fst (verify_driver_card k None c) = Ok tt <->
   exists x a, card_sign_certificate c = Some x /\ card_ca_certificate_g2 c = Some a /\ ecc_signed k x a).
Proof.
  intros k cm us c V A H1 H2. unfold verify_driver_card. rewrite H1, H2. unfold verify_gen2.
  destruct (card_sign_certificate c) as [x|] eqn:X; [|split; [discriminate|now intros (? & ? & ? & _)]].
  cbn [obtain_ecc_ca]. destruct (card_ca_certificate_g2 c) as [a|]; [|split; [discriminate|now intros (? & ? & _ & ? & _)]].
  destruct (ecc_from_dump cm us c x V A X) as (p & u & b & _ & _ & _ & _ & U & B). apply ecc_length in U as (L & U). rewrite <- U in B, L.
  pose proof (verify_ecc_cases k x a B) as Cs. destruct (verify_ecc k x (Some a)) as [o x']. cbn [fst]. split.
  - intros ->. exists x, a. split; auto. split; auto. destruct Cs as [(_ & S & _)|[(_ & _ & [R|R])|(_ & e & R)]]; [exact S|discriminate..].
  - intros (x1 & a1 & E1 & E2 & S). injection E1 as <-. injection E2 as <-.
    destruct Cs as [(_ & _ & R)|[(_ & N & _)|(N & _)]]; [now injection R|contradiction|]. exfalso. apply N.
    destruct S as (key & bits & cv & outer & body & t0 & t1 & s1 & s2 & S1 & S2 & S3 & S4 & S5 & S6 & S7 & S8 & _).
    split; auto. split; [|eauto 8]. exists key. rewrite S4. auto.
Qed.
Print Assumptions C69_own_authority_partial.

Example C69_example : exists us c, Forall dumped_ok us /\ accepted no_charmap us c /\ dc_has c Gen1 = false /\ dc_has c Gen2 = true /\
  fst (verify_driver_card toy None c) = Ok tt.
Proof.
  assert (H : exists c, verified toy (toy_resolver []) [icc_unit; gen2_unit [0; 0; 0; 1]; mkDumped 0xC108 2 sample_certificate None] c /\
    (negb (dc_has c Gen1) && dc_has c Gen2 && is_ok (fst (verify_driver_card toy None c))) = true).
  { apply verified_b_ok. vm_compute. reflexivity. }
  destruct H as (c & (V & A & _) & H). rewrite !andb_true_iff in H. destruct H as ((H1 & H2) & H3). apply negb_true_iff in H1.
  eexists. exists c. split; [exact V|]. split; [exact A|]. split; [exact H1|]. split; [exact H2|].
  destruct (fst (verify_driver_card toy None c)) as [[]|?|]; auto; discriminate H3.
Qed.

(** No first-generation card verifies this way, although such cards exist. *)
Theorem C69_own_authority_refuted :
  (forall k cm us c, Forall dumped_ok us -> accepted cm us c -> dc_has c Gen1 = true -> fst (verify_driver_card k None c) = fail) /\
  exists us c x a content, Forall dumped_ok us /\ accepted no_charmap us c /\ dc_has c Gen1 = true /\ card_certificate c = Some x /\
    card_ca_certificate c = Some a /\ issued toy (rsa_raw a) (dec 1) toy_key (to_be 8 1) content /\
    exists body, issued toy (rsa_raw x) (dec (be (sub content 20 8))) (sub content 28 128) (sub content 156 8) body.
Proof.
  split.
  - intros k cm us c V A H. unfold verify_driver_card. rewrite H. unfold verify_gen1.
    destruct (card_certificate c) as [x|]; [|reflexivity]. cbn [obtain_rsa_ca].
    destruct (card_ca_certificate c) as [a|] eqn:X; [|reflexivity]. cbn [verify_rsa_with_ca].
    pose proof (ca_from_dump cm us c a V A X) as N. unfold verify_rsa. rewrite N.
    destruct (length (rsa_raw x) =? 194)%nat; reflexivity.
  - assert (H : exists c, verified toy (toy_resolver toy_root)
        [icc_unit; gen1_unit 7 [0; 0; 0; 1]; mkDumped 0xC108 0 (gen1_certificate 1 7 [255; 255; 255; 255]) None] c /\
      (dc_has c Gen1 && match card_certificate c, card_ca_certificate c with
        | Some x, Some a => same_bytes (rsa_raw x) (gen1_certificate 7 9 [0; 0; 0; 1]) && same_bytes (rsa_raw a) (gen1_certificate 1 7 [255; 255; 255; 255])
        | _, _ => false end) = true).
    { apply verified_b_ok. vm_compute. reflexivity. }
    destruct H as (c & (V & A & _) & H). apply andb_true_iff in H as [H1 H2].
    destruct (card_certificate c) as [x|] eqn:X; [|discriminate H2]. destruct (card_ca_certificate c) as [a|] eqn:Y; [|discriminate H2].
    apply andb_true_iff in H2 as [H2 H3]. apply same_bytes_ok in H2, H3.
    eexists. exists c, x, a, (toy_content 7 [255; 255; 255; 255]). split; [exact V|]. split; [exact A|]. split; [exact H1|].
    split; [exact X|]. split; [exact Y|]. rewrite H2, H3. split.
    + split; [vm_compute; reflexivity|]. split; [vm_compute; discriminate|]. split; [vm_compute; discriminate|]. split; [vm_compute; reflexivity|].
      exists (firstn 106 (toy_content 7 [255; 255; 255; 255])).
      split; [apply bytes_okb_ok; vm_compute; reflexivity|]. split; [vm_compute; reflexivity|]. split; [vm_compute; reflexivity|].
      split; [vm_compute; reflexivity|]. right. split; [vm_compute; discriminate|vm_compute; reflexivity].
    + exists (toy_content 9 [0; 0; 0; 1]).
      replace (dec (be (sub (toy_content 7 [255; 255; 255; 255]) 20 8))) with (dec 7) by (vm_compute; reflexivity).
      replace (sub (toy_content 7 [255; 255; 255; 255]) 28 128) with toy_key by (vm_compute; reflexivity).
      replace (sub (toy_content 7 [255; 255; 255; 255]) 156 8) with (to_be 8 1) by (vm_compute; reflexivity).
      exact toy_issued.
Qed.
Print Assumptions C69_own_authority_refuted.
