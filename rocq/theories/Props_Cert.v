(** Theorems on parsing (C62) and marking (C57) certificates. *)

From Verif Require Import Base Enums DDScalar P_Scalar Asn1 Cert P_Cert.

(** ** C62 *)

(** The documented layout of an ECC certificate (Appendix 11, Table 4): an
    outer element holding the body and the signature, and in the body seven
    elements.  The tags are not checked by the code (only the one of the object
    identifier), and bytes after the last expected element are ignored. *)
Definition ecc_layout (d : bytes) (c : ecc_cert) : Prop :=
  exists outer body cpi car cha pk oid point chr from to sg o x y r s t0 t1 t2 t3,
    Forall element [outer; body; cpi; car; cha; pk; oid; point; chr; from; to; sg] /\
    d = rv_full outer ++ t0 /\
    rv_bytes outer = rv_full body ++ rv_full sg ++ t1 /\
    rv_bytes body = rv_full cpi ++ rv_full car ++ rv_full cha ++ rv_full pk ++ rv_full chr ++
                    rv_full from ++ rv_full to ++ t2 /\
    rv_bytes pk = rv_full oid ++ rv_full point ++ t3 /\
    length (rv_bytes cpi) = 1%nat /\ length (rv_bytes car) = 8%nat /\ length (rv_bytes cha) = 7%nat /\
    length (rv_bytes chr) = 8%nat /\ length (rv_bytes from) = 4%nat /\ length (rv_bytes to) = 4%nat /\
    rv_id oid = 6 /\ oid_enc o (rv_bytes oid) /\
    rv_bytes point = 4 :: x ++ y /\ length x = length y /\
    rv_bytes sg = r ++ s /\ length r = length s /\
    c = {| ecc_cpi := be (rv_bytes cpi); ecc_car := dec (be (rv_bytes car)); ecc_cha := rv_bytes cha;
           ecc_pk := Some {| key_oid := oid_string o; key_x := x; key_y := y |};
           ecc_chr := dec (be (rv_bytes chr));
           ecc_from := Some (mkTs (be (rv_bytes from)) 0); ecc_to := Some (mkTs (be (rv_bytes to)) 0);
           ecc_sig := Some (r, s); ecc_valid := None; ecc_raw := d |}.

Lemma raw_of_length_iff n d v rest : bytes_ok d ->
  raw_of_length n d = Ok (v, rest) <->
  exists e, element e /\ d = rv_full e ++ rest /\ length (rv_bytes e) = n /\ v = rv_bytes e.
Proof.
  intros H. unfold raw_of_length. split.
  - intros E. destruct (asn1_raw d) as [[e r]| |] eqn:R; try discriminate. cbn [bind] in E.
    apply raw_iff in R as [V D]; auto. destruct (Nat.eqb_spec (length (rv_bytes e)) n); try discriminate.
    cbn in E. injection E as <- <-. eauto.
  - intros (e & V & D & L & ->). rewrite (proj2 (raw_iff d e rest H)) by auto. cbn [bind].
    rewrite L, Nat.eqb_refl. reflexivity.
Qed.

Lemma key_iff d k : bytes_ok d ->
  unmarshal_key d = Ok k <->
  exists oid point o x y t, element oid /\ element point /\ d = rv_full oid ++ rv_full point ++ t /\
    rv_id oid = 6 /\ oid_enc o (rv_bytes oid) /\ rv_bytes point = 4 :: x ++ y /\ length x = length y /\
    k = {| key_oid := oid_string o; key_x := x; key_y := y |}.
Proof.
  intros H. unfold unmarshal_key. split.
  - intros E. destruct (asn1_oid 6 d) as [[o r]| |] eqn:O; try discriminate. cbn [bind] in E.
    apply oid_iff in O as (oid & V & -> & I & OE); auto. apply bytes_ok_app in H as [_ H].
    destruct (asn1_raw r) as [[p t]| |] eqn:R; try discriminate. cbn [bind] in E.
    apply raw_iff in R as [VP ->]; auto. apply bytes_ok_app in H as [HP _].
    pose proof (element_ok _ HP VP) as HB.
    destruct (rv_bytes p) as [|b pt] eqn:EP; try discriminate.
    cbn [nth length Nat.ltb Nat.leb negb andb] in E.
    destruct (Z.eqb_spec b 4) as [->|]; try discriminate. cbn [guard bind] in E.
    set (n := ((S (length pt) - 1) / 2)%nat) in E.
    destruct (Nat.eqb_spec (S (length pt)) (1 + 2 * n)) as [L|L]; try discriminate. cbn [guard bind] in E.
    apply Ok_inj in E. subst k. unfold sub. cbn [skipn Nat.add].
    exists oid, p, o, (firstn n pt), (skipn n pt), t. rewrite firstn_skipn, firstn_length, skipn_length.
    repeat split; auto. lia.
  - intros (oid & point & o & x & y & t & V & VP & -> & I & OE & EP & L & ->).
    rewrite (proj2 (oid_iff 6 _ o (rv_full point ++ t) H)) by eauto. cbn [bind].
    apply bytes_ok_app in H as [_ H]. rewrite (proj2 (raw_iff _ point t H)) by auto. cbn [bind].
    rewrite EP. cbn [nth length]. rewrite Z.eqb_refl. cbn [Nat.ltb Nat.leb negb andb guard bind].
    rewrite Nat.sub_succ, Nat.sub_0_r, app_length, <- L.
    replace ((length x + length x) / 2)%nat with (length x) by (apply (Nat.div_unique _ _ _ 0); lia).
    replace (S (length x + length x)) with (1 + 2 * length x)%nat by lia. rewrite Nat.eqb_refl. cbn [guard bind].
    unfold sub. cbn [skipn Nat.add]. rewrite firstn_app, firstn_all, Nat.sub_diag, app_nil_r.
    rewrite skipn_app, skipn_all, Nat.sub_diag. reflexivity.
Qed.

Lemma sec_time_iff d t : sec_time d = Ok t <-> length d = 4%nat /\ t = mkTs (be d) 0.
Proof.
  unfold sec_time. destruct (Nat.eqb_spec (length d) 4); cbn [guard bind].
  - split; [intros E; apply Ok_inj in E; auto|intros [_ ->]; reflexivity].
  - split; [discriminate|tauto].
Qed.

Lemma be_single l : length l = 1%nat -> be l = nth 0 l 0.
Proof. destruct l as [|a [|b l]]; try discriminate. reflexivity. Qed.

(** Root and RSA certificates have one length each; the fields are the documented
    ranges; the raw bytes are kept.  An ECC certificate is accepted exactly if it
    has between 204 and 341 bytes and the documented layout.  No panics. *)
Theorem C62_certificates_parsed :
  forall d, bytes_ok d ->
  (forall c, unmarshal_root d = Ok c <->
     exists id n e, d = id ++ n ++ e /\ length id = 8%nat /\ length n = 128%nat /\ length e = 8%nat /\
       c = {| root_key_id := dec (be id); root_n := n; root_e := e |}) /\
  (forall c, unmarshal_rsa d = Ok c <->
     exists sr cn car, d = sr ++ cn ++ car /\ length sr = 128%nat /\ length cn = 58%nat /\ length car = 8%nat /\
       c = {| rsa_chr := []; rsa_car := dec (be car); rsa_eov := None; rsa_n := []; rsa_e := [];
              rsa_raw := d; rsa_valid := None |}) /\
  (forall c, unmarshal_ecc d = Ok c <-> (204 <= length d <= 341)%nat /\ ecc_layout d c) /\
  unmarshal_root d <> Panic /\ unmarshal_rsa d <> Panic /\ unmarshal_ecc d <> Panic.
Proof.
  intros d H. split; [|split; [|split]].
  - intros c. unfold unmarshal_root. split.
    + intros E. destruct (Nat.eqb_spec (length d) 144) as [L|L]; try discriminate. cbn [guard bind] in E.
      apply Ok_inj in E. subst c. exists (sub d 0 8), (sub d 8 128), (sub d 136 8).
      rewrite !sub_length by lia. repeat split; auto.
      rewrite (sub_join d 8 128 8 136), (sub_join d 0 8 (128 + 8) 8) by lia. symmetry. apply sub_whole; lia.
    + intros (id & n & e & -> & L1 & L2 & L3 & ->). rewrite !app_length, L1, L2, L3. cbn [Nat.eqb Nat.add guard bind].
      f_equal. f_equal.
      * rewrite sub_app_l by auto. reflexivity.
      * rewrite sub_app_r by auto. rewrite <- L2 at 1. rewrite firstn_app, firstn_all, Nat.sub_diag, app_nil_r. reflexivity.
      * rewrite app_assoc, sub_app_r by (rewrite app_length; lia). rewrite <- L3 at 1. apply firstn_all.
  - intros c. unfold unmarshal_rsa. split.
    + intros E. destruct (Nat.eqb_spec (length d) 194) as [L|L]; try discriminate. cbn [guard bind] in E.
      apply Ok_inj in E. subst c. exists (sub d 0 128), (sub d 128 58), (sub d 186 8).
      rewrite !sub_length by lia. repeat split; auto.
      rewrite (sub_join d 128 58 8 186), (sub_join d 0 128 (58 + 8) 128) by lia. symmetry. apply sub_whole; lia.
    + intros (sr & cn & car & -> & L1 & L2 & L3 & ->). rewrite !app_length, L1, L2, L3. cbn [Nat.eqb Nat.add guard bind].
      f_equal. f_equal.
      rewrite app_assoc, sub_app_r by (rewrite app_length; lia). rewrite <- L3 at 1. now rewrite firstn_all.
  - intros c. unfold unmarshal_ecc. split.
    + intros E. destruct (Nat.ltb_spec (length d) 204) as [L|L]; try discriminate.
      destruct (Nat.ltb_spec 341 (length d)) as [L'|L']; try discriminate. cbn [negb orb guard bind] in E.
      split; [lia|].
      destruct (asn1_raw d) as [[outer t0]| |] eqn:R0; try discriminate. cbn [bind] in E.
      apply raw_iff in R0 as [V0 D0]; auto.
      assert (H0 : bytes_ok (rv_bytes outer)).
      { apply element_ok; auto. rewrite D0 in H. now apply bytes_ok_app in H. }
      destruct (asn1_raw (rv_bytes outer)) as [[body ab]| |] eqn:R1; try discriminate. cbn [bind] in E.
      apply raw_iff in R1 as [V1 D1]; auto.
      rewrite D1, bytes_ok_app in H0. destruct H0 as [HB0 HS].
      assert (HB : bytes_ok (rv_bytes body)) by (apply element_ok; auto).
      destruct (raw_of_length 1 (rv_bytes body)) as [[cpi r1]| |] eqn:Q1; try discriminate. cbn [bind] in E.
      apply raw_of_length_iff in Q1 as (e1 & W1 & S1 & L1 & ->); auto.
      pose proof HB as HB'. rewrite S1, bytes_ok_app in HB'. destruct HB' as [_ HB1].
      destruct (raw_of_length 8 r1) as [[car r2]| |] eqn:Q2; try discriminate. cbn [bind] in E.
      apply raw_of_length_iff in Q2 as (e2 & W2 & S2 & L2 & ->); auto.
      pose proof HB1 as HB'. rewrite S2, bytes_ok_app in HB'. destruct HB' as [_ HB2].
      destruct (raw_of_length 7 r2) as [[cha r3]| |] eqn:Q3; try discriminate. cbn [bind] in E.
      apply raw_of_length_iff in Q3 as (e3 & W3 & S3 & L3 & ->); auto.
      pose proof HB2 as HB'. rewrite S3, bytes_ok_app in HB'. destruct HB' as [_ HB3].
      destruct (asn1_raw r3) as [[pk r4]| |] eqn:Q4; try discriminate. cbn [bind] in E.
      apply raw_iff in Q4 as [W4 S4]; auto.
      pose proof HB3 as HB'. rewrite S4, bytes_ok_app in HB'. destruct HB' as [HPK HB4].
      assert (HK : bytes_ok (rv_bytes pk)) by (apply element_ok; auto).
      destruct (unmarshal_key (rv_bytes pk)) as [key| |] eqn:QK; try discriminate. cbn [bind] in E.
      apply key_iff in QK as (oid & point & o & x & y & t3 & VO & VP & SK & IO & OE & EP & LXY & ->); auto.
      destruct (raw_of_length 8 r4) as [[chr r5]| |] eqn:Q5; try discriminate. cbn [bind] in E.
      apply raw_of_length_iff in Q5 as (e5 & W5 & S5 & L5 & ->); auto.
      pose proof HB4 as HB'. rewrite S5, bytes_ok_app in HB'. destruct HB' as [_ HB5].
      destruct (raw_of_length 4 r5) as [[from r6]| |] eqn:Q6; try discriminate. cbn [bind] in E.
      apply raw_of_length_iff in Q6 as (e6 & W6 & S6 & L6 & ->); auto.
      pose proof HB5 as HB'. rewrite S6, bytes_ok_app in HB'. destruct HB' as [_ HB6].
      rewrite (proj2 (sec_time_iff (rv_bytes e6) _) (conj L6 eq_refl)) in E. cbn [bind] in E.
      destruct (raw_of_length 4 r6) as [[to r7]| |] eqn:Q7; try discriminate. cbn [bind] in E.
      apply raw_of_length_iff in Q7 as (e7 & W7 & S7 & L7 & ->); auto.
      rewrite (proj2 (sec_time_iff (rv_bytes e7) _) (conj L7 eq_refl)) in E. cbn [bind] in E.
      destruct (asn1_raw ab) as [[sg t1]| |] eqn:Q8; try discriminate. cbn [bind] in E.
      apply raw_iff in Q8 as [W8 S8]; auto.
      destruct (Nat.eqb_spec (length (rv_bytes sg) mod 2) 0) as [EV|EV]; try discriminate. cbn [guard bind] in E.
      apply Ok_inj in E. subst c.
      assert (EL : (length (rv_bytes sg) = 2 * (length (rv_bytes sg) / 2))%nat).
      { rewrite (Nat.div_mod (length (rv_bytes sg)) 2) at 1 by lia. lia. }
      exists outer, body, e1, e2, e3, pk, oid, point, e5, e6, e7, sg, o, x, y,
        (firstn (length (rv_bytes sg) / 2) (rv_bytes sg)), (skipn (length (rv_bytes sg) / 2) (rv_bytes sg)),
        t0, t1, r7, t3.
      rewrite firstn_skipn, firstn_length, skipn_length, (be_single _ L1).
      split; [repeat (apply Forall_cons; auto)|].
      split; [exact D0|]. split; [rewrite D1, S8; reflexivity|].
      split; [rewrite S1, S2, S3, S4, S5, S6, S7; reflexivity|].
      repeat split; auto. lia.
    + intros (L & outer & body & e1 & e2 & e3 & pk & oid & point & e5 & e6 & e7 & sg & o & x & y & r & s &
              t0 & t1 & t2 & t3 & F & D0 & D1 & DB & DK & L1 & L2 & L3 & L5 & L6 & L7 & IO & OE & EP & LXY & ES & LRS & ->).
      destruct (Nat.ltb_spec (length d) 204); [lia|]. destruct (Nat.ltb_spec 341 (length d)); [lia|].
      cbn [negb orb guard bind].
      repeat match goal with F : Forall element (_ :: _) |- _ =>
        let V := fresh "V" in let F' := fresh "F" in inversion F as [|? ? V F']; clear F; subst end.
      rewrite (proj2 (raw_iff _ outer t0 H)) by auto. cbn [bind].
      assert (HO : bytes_ok (rv_bytes outer)) by (apply element_ok; auto; now apply bytes_ok_app in H).
      rewrite D1 in HO |- *. rewrite (proj2 (raw_iff _ body (rv_full sg ++ t1) HO)) by auto. cbn [bind].
      apply bytes_ok_app in HO as [HB0 HS].
      assert (HB : bytes_ok (rv_bytes body)) by (apply element_ok; auto).
      rewrite DB in HB |- *.
      rewrite (proj2 (raw_of_length_iff 1 _ (rv_bytes e1) _ HB)) by (exists e1; eauto). cbn [bind].
      apply bytes_ok_app in HB as [_ HB].
      rewrite (proj2 (raw_of_length_iff 8 _ (rv_bytes e2) _ HB)) by (exists e2; eauto). cbn [bind].
      apply bytes_ok_app in HB as [_ HB].
      rewrite (proj2 (raw_of_length_iff 7 _ (rv_bytes e3) _ HB)) by (exists e3; eauto). cbn [bind].
      apply bytes_ok_app in HB as [_ HB].
      rewrite (proj2 (raw_iff _ pk _ HB)) by eauto. cbn [bind].
      apply bytes_ok_app in HB as [HPK HB].
      assert (HK : bytes_ok (rv_bytes pk)) by (apply element_ok; auto).
      rewrite (proj2 (key_iff (rv_bytes pk) (mkKey (oid_string o) x y) HK)) by
        (exists oid, point, o, x, y, t3; repeat split; auto).
      cbn [bind].
      rewrite (proj2 (raw_of_length_iff 8 _ (rv_bytes e5) _ HB)) by (exists e5; eauto). cbn [bind].
      apply bytes_ok_app in HB as [_ HB].
      rewrite (proj2 (raw_of_length_iff 4 _ (rv_bytes e6) _ HB)) by (exists e6; eauto). cbn [bind].
      rewrite (proj2 (sec_time_iff (rv_bytes e6) _) (conj L6 eq_refl)). cbn [bind].
      apply bytes_ok_app in HB as [_ HB].
      rewrite (proj2 (raw_of_length_iff 4 _ (rv_bytes e7) _ HB)) by (exists e7; eauto). cbn [bind].
      rewrite (proj2 (sec_time_iff (rv_bytes e7) _) (conj L7 eq_refl)). cbn [bind].
      rewrite (proj2 (raw_iff _ sg t1 HS)) by auto. cbn [bind].
      rewrite ES, app_length, LRS. replace ((length s + length s) / 2)%nat with (length s) by (apply (Nat.div_unique _ _ _ 0); lia).
      replace ((length s + length s) mod 2)%nat with 0%nat by (apply (Nat.mod_unique _ _ (length s)); lia).
      cbn [Nat.eqb guard bind]. rewrite <- LRS at 1 2.
      rewrite firstn_app, firstn_all, Nat.sub_diag, app_nil_r, skipn_app, skipn_all, Nat.sub_diag.
      rewrite (be_single _ L1). reflexivity.
  - split; [|split].
    + unfold unmarshal_root. destruct (_ =? _)%nat; discriminate.
    + unfold unmarshal_rsa. destruct (_ =? _)%nat; discriminate.
    + apply ecc_no_panic.
Qed.
Print Assumptions C62_certificates_parsed.

(** A certificate on the curve brainpoolP256r1, as on real cards. *)
Definition tlv (t v : bytes) : bytes :=
  t ++ (if (length v <? 128)%nat then [Z.of_nat (length v)] else [129; Z.of_nat (length v)]) ++ v.

Definition sample_body (chr from to : bytes) (x y : bytes) : bytes :=
  tlv [127; 78]
    (tlv [95; 41] [0] ++ tlv [66] [1; 2; 3; 4; 5; 6; 7; 8] ++ tlv [95; 76] [255; 83; 77; 82; 68; 84; 14] ++
     tlv [127; 73] (tlv [6] [43; 36; 3; 3; 2; 8; 1; 1; 7] ++ tlv [134] (4 :: x ++ y)) ++
     tlv [95; 32] chr ++ tlv [95; 37] from ++ tlv [95; 36] to).

Definition sample_ecc (chr from to x y r s : bytes) : bytes :=
  tlv [127; 33] (sample_body chr from to x y ++ tlv [95; 55] (r ++ s)).

Example C62_example :
  let d := sample_ecc [0; 0; 0; 0; 0; 0; 0; 42] [93; 0; 0; 0] [107; 0; 0; 0] (repeat 1 32) (repeat 2 32) (repeat 3 32) (repeat 4 32) in
  exists c, unmarshal_ecc d = Ok c /\ length d = 205%nat /\ ecc_chr c = [52; 50] (* "42" *) /\
    ecc_sig c = Some (repeat 3 32, repeat 4 32) /\
    option_map key_oid (ecc_pk c) = Some (oid_string oid_bp256).
Proof. eexists. split; [vm_compute; reflexivity|]. repeat split. Qed.

(** ** C57 *)

(** What a valid signature of an RSA certificate means (Appendix 11, 3.3):
    the signature recovers to 6A, the first part of the content, the hash of the
    whole content, BC. *)
Definition recovers (x e n v : Z) : Prop := (n = 0 /\ v = x ^ e) \/ (n <> 0 /\ v = x ^ e mod n).

Definition rsa_signed (k : crypto) (raw n e content : bytes) : Prop :=
  exists cr, bytes_ok cr /\ length cr = 106%nat /\ content = cr ++ sub raw 128 58 /\
    length (sha1 k content) = 20%nat /\
    recovers (be (sub raw 0 128)) (be e) (be n) (be (106 :: cr ++ sha1 k content ++ [188])).

(** The fields taken from verified content. *)
Definition rsa_filled (c : rsa_cert) (content : bytes) : rsa_cert :=
  {| rsa_chr := dec (be (sub content 20 8)); rsa_car := dec (be (sub content 1 8));
     rsa_eov := Some (mkTs (be (sub content 16 4)) 0); rsa_n := sub content 28 128; rsa_e := sub content 156 8;
     rsa_raw := rsa_raw c; rsa_valid := Some true |}.

(** A hash gives bytes, whatever it is given. *)
Definition hash_bytes (k : crypto) : Prop := forall m, bytes_ok (sha1 k m).

Lemma mod_exp_recovers x e n v : mod_exp x e n = v <-> recovers x e n v.
Proof. unfold mod_exp, recovers. destruct (Z.eqb_spec n 0); split; intuition. Qed.

Lemma mod_exp_nonneg x e n : 0 <= x -> 0 <= n -> 0 <= mod_exp x e n.
Proof.
  intros X N. unfold mod_exp. destruct (Z.eqb_spec n 0); [now apply Z.pow_nonneg|].
  apply Z.mod_pos_bound. lia.
Qed.

Lemma be_nonneg l : bytes_ok l -> 0 <= be l.
Proof. intros H. pose proof (be_range l H). lia. Qed.

Definition key_present (n e : bytes) : Prop := n <> [] /\ e <> [].

Lemma verify_rsa_cases k c n e chr : hash_bytes k -> bytes_ok (rsa_raw c) -> bytes_ok n ->
  let r := verify_rsa k c n e chr in
  (length (rsa_raw c) = 194%nat /\ key_present n e /\ chr = dec (be (sub (rsa_raw c) 186 8)) /\
   (exists content, rsa_signed k (rsa_raw c) n e content /\ r = (Ok tt, rsa_filled c content))) \/
  ((length (rsa_raw c) <> 194%nat \/ ~ key_present n e) /\ r = (fail, c)) \/
  (length (rsa_raw c) = 194%nat /\ key_present n e /\
   ~ (chr = dec (be (sub (rsa_raw c) 186 8)) /\ exists content, rsa_signed k (rsa_raw c) n e content) /\
   r = (fail, rsa_mark c false)).
Proof.
  intros HK H HN r. subst r. unfold verify_rsa.
  destruct (Nat.eqb_spec (length (rsa_raw c)) 194) as [L|L]; cbn [negb]; [|right; left; auto].
  destruct n as [|n0 n].
  { right. left. split; [right; intros [? _]; congruence|reflexivity]. }
  destruct e as [|e0 e].
  { right. left. split; [right; intros [_ ?]; congruence|reflexivity]. }
  assert (KP : key_present (n0 :: n) (e0 :: e)) by (split; discriminate).
  set (n' := n0 :: n) in *. set (e' := e0 :: e) in *.
  change ((length n' =? 0)%nat || (length e' =? 0)%nat) with false. cbn [orb].
  destruct (list_eq_dec Z.eq_dec (dec (be (sub (rsa_raw c) 186 8))) chr) as [EC|EC]; cbn [negb].
  2: { right. right. split; [exact L|]. split; [exact KP|]. split; [|reflexivity]. intros [-> _]. congruence. }
  set (v := mod_exp (be (sub (rsa_raw c) 0 128)) (be e') (be n')).
  assert (V0 : 0 <= v) by (apply mod_exp_nonneg; apply be_nonneg; auto using bytes_ok_sub).
  assert (KEY : forall content, rsa_signed k (rsa_raw c) n' e' content ->
    v < 256 ^ 128 /\ to_be 128 v = 106 :: sub (to_be 128 v) 1 106 ++ sha1 k content ++ [188] /\
    content = sub (to_be 128 v) 1 106 ++ sub (rsa_raw c) 128 58).
  { intros content (cr & B & LC & Ec & LH & R).
    apply mod_exp_recovers in R. fold v in R.
    assert (LL : length (106 :: cr ++ sha1 k content ++ [188]) = 128%nat).
    { cbn [length]. rewrite !app_length, LC, LH. reflexivity. }
    assert (BL : bytes_ok (106 :: cr ++ sha1 k content ++ [188])).
    { apply bytes_ok_cons. split; [unfold byte_ok; lia|]. rewrite !bytes_ok_app. repeat split; auto.
      constructor; [unfold byte_ok; lia|constructor]. }
    assert (T : to_be 128 v = 106 :: cr ++ sha1 k content ++ [188]).
    { rewrite R. now apply to_be_be. }
    assert (S1 : sub (to_be 128 v) 1 106 = cr).
    { rewrite T. unfold sub. cbn [skipn]. rewrite <- LC at 1. rewrite firstn_app, firstn_all, Nat.sub_diag, app_nil_r. reflexivity. }
    rewrite S1. split; [|auto]. rewrite R. pose proof (be_range _ BL) as Q. rewrite LL in Q.
    change (Z.of_nat 128) with 128 in Q. lia. }
  assert (NO : forall P : Prop, (forall content, rsa_signed k (rsa_raw c) n' e' content -> P) -> ~ P ->
    ~ (chr = dec (be (sub (rsa_raw c) 186 8)) /\ exists content, rsa_signed k (rsa_raw c) n' e' content)).
  { intros P A B [_ [content Q]]. apply B. eauto. }
  destruct (Z.leb_spec (256 ^ 128) v) as [G|G].
  { right. right. split; [exact L|]. split; [exact KP|]. split; [|reflexivity]. apply (NO (v < 256 ^ 128)); [|lia]. intros q Q. exact (proj1 (KEY q Q)). }
  assert (LS : length (to_be 128 v) = 128%nat) by apply to_be_length.
  assert (BS : bytes_ok (to_be 128 v)) by (apply to_be_ok).
  destruct (Z.eqb_spec (nth 0 (to_be 128 v) 0) 106) as [N0|N0]; cbn [negb].
  2: { right. right. split; [exact L|]. split; [exact KP|]. split; [|reflexivity]. apply (NO (nth 0 (to_be 128 v) 0 = 106)); auto.
       intros q Q. apply KEY in Q as (_ & T & _). rewrite T. reflexivity. }
  destruct (Z.eqb_spec (nth 127 (to_be 128 v) 0) 188) as [N1|N1]; cbn [negb].
  2: { right. right. split; [exact L|]. split; [exact KP|]. split; [|reflexivity]. apply (NO (nth 127 (to_be 128 v) 0 = 188)); auto.
       intros q Q. pose proof Q as (cr & B & LC & Ec & LH & R). apply KEY in Q as (_ & T & _).
       rewrite T. change 127%nat with (S 126). cbn [nth]. rewrite app_nth2; rewrite sub_length by lia; [|lia].
       rewrite app_nth2 by lia. rewrite LH. reflexivity. }
  set (content := sub (to_be 128 v) 1 106 ++ sub (rsa_raw c) 128 58).
  destruct (list_eq_dec Z.eq_dec (sub (to_be 128 v) 107 20) (sha1 k content)) as [EH|EH]; cbn [negb].
  2: { right. right. split; [exact L|]. split; [exact KP|]. split; [|reflexivity]. apply (NO (sub (to_be 128 v) 107 20 = sha1 k content)); auto.
       intros q Q. pose proof Q as (cr & B & LC & Ec & LH & R). apply KEY in Q as (_ & T & Eq).
       fold content in Eq. subst q. rewrite T at 1.
       change (106 :: sub (to_be 128 v) 1 106 ++ sha1 k content ++ [188]) with
         ((106 :: sub (to_be 128 v) 1 106) ++ sha1 k content ++ [188]).
       rewrite sub_app_r by (cbn [length]; rewrite sub_length by lia; reflexivity).
       rewrite <- LH at 1. rewrite firstn_app, firstn_all, Nat.sub_diag, app_nil_r. reflexivity. }
  left. split; [exact L|]. split; [exact KP|]. split; [congruence|]. exists content. split; [|reflexivity].
  exists (sub (to_be 128 v) 1 106). rewrite <- EH.
  split; [now apply bytes_ok_sub|]. split; [apply sub_length; lia|]. split; [reflexivity|].
  split; [apply sub_length; lia|].
  { apply mod_exp_recovers. fold v.
    replace (106 :: sub (to_be 128 v) 1 106 ++ sub (to_be 128 v) 107 20 ++ [188]) with (to_be 128 v).
    { rewrite be_to_be. change (Z.of_nat 128) with 128. rewrite Z.mod_small by lia. reflexivity. }
    rewrite <- N1. rewrite <- (sub_1 (to_be 128 v) 127) by lia.
    rewrite (sub_join (to_be 128 v) 107 20 1 127), (sub_join (to_be 128 v) 1 106 (20 + 1) 107) by lia.
    rewrite <- N0. change (nth 0 (to_be 128 v) 0 :: sub (to_be 128 v) 1 (106 + (20 + 1))) with
      ([nth 0 (to_be 128 v) 0] ++ sub (to_be 128 v) 1 (106 + (20 + 1))).
    rewrite <- (sub_1 (to_be 128 v) 0) by lia.
    rewrite (sub_join (to_be 128 v) 0 1 (106 + (20 + 1)) 1) by lia. symmetry. apply sub_whole. lia. }
Qed.

(** What a valid signature of an ECC certificate means (Appendix 11, 9.3.2): ECDSA
    over the whole body element under the authority's point, with the hash that
    belongs to the authority's curve. *)
Definition ecc_signed (k : crypto) (c ca : ecc_cert) : Prop :=
  exists key bits cv outer body t0 t1 r s,
    ecc_pk ca = Some key /\ key_x key <> [] /\ key_y key <> [] /\ parse_curve_oid (key_oid key) = Ok (bits, cv) /\
    element outer /\ element body /\ ecc_raw c = rv_full outer ++ t0 /\ rv_bytes outer = rv_full body ++ t1 /\
    ecc_sig c = Some (r, s) /\
    ecdsa k cv (be (key_x key)) (be (key_y key)) (sha2 k bits (rv_full body)) (be r) (be s) = Some true.

Lemma curve_no_panic f x l : curve_of f x l <> Panic.
Proof. induction l as [|[o c] l IH]; cbn; [discriminate|]. destruct (list_eq_dec _ _ _); [discriminate|exact IH]. Qed.

Lemma parse_curve_no_panic s : parse_curve_oid s <> Panic.
Proof.
  unfold parse_curve_oid. destruct (asn1_oid 134 s) as [[o ?]| |] eqn:E; try apply curve_no_panic.
  now apply oid_no_panic in E.
Qed.

(** The curve a dotted identifier stands for. *)
Lemma curve_dotted x : hd 0 x <> 134 -> bytes_ok x ->
  parse_curve_oid x = curve_of oid_string x curves.
Proof.
  intros N H. unfold parse_curve_oid. destruct (asn1_oid 134 x) as [[o r]| |] eqn:E; [|reflexivity|].
  - exfalso. apply oid_iff in E as (v & (t & l & T & I & _ & F) & D & I' & _); auto.
    rewrite D, F in N. destruct T as [(b & -> & _)|(b & ds & -> & _)]; cbn in *; congruence.
  - exfalso. now apply oid_no_panic in E.
Qed.

Lemma curves_dotted : forall o bits cv, In (o, (bits, cv)) curves -> parse_curve_oid (oid_string o) = Ok (bits, cv).
Proof.
  intros o bits cv I. repeat (destruct I as [E|I]; [injection E as <- <- <-; vm_compute; reflexivity|]). contradiction.
Qed.

Definition ecc_attemptable (c ca : ecc_cert) : Prop :=
  (204 <= length (ecc_raw c) <= 341)%nat /\
  (exists key, ecc_pk ca = Some key /\ key_x key <> [] /\ key_y key <> [] /\ is_ok (parse_curve_oid (key_oid key)) = true) /\
  (exists outer body t0 t1, element outer /\ element body /\ ecc_raw c = rv_full outer ++ t0 /\ rv_bytes outer = rv_full body ++ t1).

Lemma full_inj v v' t t' : bytes_ok (rv_full v ++ t) -> element v -> element v' -> rv_full v ++ t = rv_full v' ++ t' ->
  v = v' /\ t = t'.
Proof.
  intros H V V' E. assert (R : asn1_raw (rv_full v ++ t) = Ok (v, t)) by (apply raw_iff; auto).
  assert (R' : asn1_raw (rv_full v ++ t) = Ok (v', t')) by (apply raw_iff; auto).
  rewrite R in R'. apply Ok_inj in R'. injection R' as -> ->. auto.
Qed.

Lemma verify_ecc_cases k c ca : bytes_ok (ecc_raw c) ->
  let r := verify_ecc k c (Some ca) in
  (ecc_attemptable c ca /\ ecc_signed k c ca /\ r = (Ok tt, ecc_mark c true)) \/
  (ecc_attemptable c ca /\ ~ ecc_signed k c ca /\ (r = (fail, ecc_mark c false) \/ r = (Panic, c))) \/
  (~ ecc_attemptable c ca /\ exists e, r = (Err e, c)).
Proof.
  intros H r. subst r. unfold verify_ecc.
  assert (NP : forall e, ecc_prepare k c (Some ca) = Err e -> ~ ecc_attemptable c ca).
  { intros e E (L & (key & EK & X & Y & P) & (outer & body & t0 & t1 & VO & VB & D & DB)).
    unfold ecc_prepare in E. destruct (Nat.ltb_spec (length (ecc_raw c)) 204); [lia|].
    destruct (Nat.ltb_spec 341 (length (ecc_raw c))); [lia|]. cbn [negb orb guard bind] in E. rewrite EK in E.
    destruct (key_x key); [congruence|]. destruct (key_y key); [congruence|].
    cbn [length Nat.eqb negb orb guard bind] in E.
    destruct (parse_curve_oid (key_oid key)) as [[bits cv]| |]; try discriminate. cbn [bind] in E.
    rewrite (proj2 (raw_iff _ outer t0 H)) in E by auto. cbn [bind] in E.
    assert (HO : bytes_ok (rv_bytes outer)). { apply element_ok; auto. rewrite D in H. now apply bytes_ok_app in H. }
    rewrite (proj2 (raw_iff _ body t1 HO)) in E by auto. discriminate. }
  destruct (ecc_prepare k c (Some ca)) as [[[[h cv] x] y]| |] eqn:E.
  - assert (Q : exists key bits outer body t0 t1,
      ecc_pk ca = Some key /\ key_x key <> [] /\ key_y key <> [] /\ parse_curve_oid (key_oid key) = Ok (bits, cv) /\
      element outer /\ element body /\ ecc_raw c = rv_full outer ++ t0 /\ rv_bytes outer = rv_full body ++ t1 /\
      h = sha2 k bits (rv_full body) /\ x = be (key_x key) /\ y = be (key_y key) /\ (204 <= length (ecc_raw c) <= 341)%nat).
    { unfold ecc_prepare in E. destruct (Nat.ltb_spec (length (ecc_raw c)) 204); [discriminate|].
      destruct (Nat.ltb_spec 341 (length (ecc_raw c))); [discriminate|]. cbn [negb orb guard bind] in E.
      destruct (ecc_pk ca) as [key|] eqn:EK; [|discriminate].
      destruct (Nat.eqb_spec (length (key_x key)) 0) as [|X]; [discriminate|].
      destruct (Nat.eqb_spec (length (key_y key)) 0) as [|Y]; [discriminate|]. cbn [negb orb guard bind] in E.
      destruct (parse_curve_oid (key_oid key)) as [[bits cv']| |] eqn:P; try discriminate. cbn [bind] in E.
      destruct (asn1_raw (ecc_raw c)) as [[outer t0]| |] eqn:R0; try discriminate. cbn [bind] in E.
      apply raw_iff in R0 as [V0 D0]; auto.
      assert (HO : bytes_ok (rv_bytes outer)). { apply element_ok; auto. rewrite D0 in H. now apply bytes_ok_app in H. }
      destruct (asn1_raw (rv_bytes outer)) as [[body t1]| |] eqn:R1; try discriminate. cbn [bind] in E.
      apply raw_iff in R1 as [V1 D1]; auto. apply Ok_inj in E. injection E as <- <- <- <-.
      exists key, bits, outer, body, t0, t1. repeat split; auto.
      - intros Z0. rewrite Z0 in X. now apply X.
      - intros Z0. rewrite Z0 in Y. now apply Y. }
    destruct Q as (key & bits & outer & body & t0 & t1 & EK & X & Y & P & VO & VB & D & DB & -> & -> & -> & L).
    assert (AT : ecc_attemptable c ca).
    { split; [exact L|]. split; [exists key; rewrite P; auto|]. exists outer, body, t0, t1. auto. }
    assert (UN : ecc_signed k c ca -> exists r s, ecc_sig c = Some (r, s) /\
      ecdsa k cv (be (key_x key)) (be (key_y key)) (sha2 k bits (rv_full body)) (be r) (be s) = Some true).
    { intros (key' & bits' & cv' & outer' & body' & t0' & t1' & r & s & EK' & X' & Y' & P' & VO' & VB' & D' & DB' & S & EV).
      rewrite EK in EK'. injection EK' as <-. rewrite P in P'. apply Ok_inj in P'. injection P' as <- <-.
      rewrite D in D'. destruct (full_inj _ _ _ _ ltac:(rewrite <- D; exact H) VO VO' D') as [<- _].
      rewrite DB in DB'. assert (HO : bytes_ok (rv_full body ++ t1)).
      { rewrite <- DB. apply element_ok; auto. rewrite D in H. now apply bytes_ok_app in H. }
      destruct (full_inj _ _ _ _ HO VB VB' DB') as [<- _]. eauto. }
    destruct (ecc_sig c) as [[r s]|] eqn:S.
    + destruct (ecdsa k cv (be (key_x key)) (be (key_y key)) (sha2 k bits (rv_full body)) (be r) (be s)) as [[|]|] eqn:EV.
      * left. split; [exact AT|]. split; [|reflexivity].
        exists key, bits, cv, outer, body, t0, t1, r, s. repeat split; auto.
      * right. left. split; [exact AT|]. split; [|auto]. intros U. apply UN in U as (r' & s' & SE & EV').
        injection SE as <- <-. congruence.
      * right. left. split; [exact AT|]. split; [|auto]. intros U. apply UN in U as (r' & s' & SE & EV').
        injection SE as <- <-. congruence.
    + right. left. split; [exact AT|]. split; [|auto]. intros U. apply UN in U as (r' & s' & SE & _). discriminate.
  - right. right. split; [now apply (NP e)|eauto].
  - exfalso. unfold ecc_prepare in E. destruct (negb _); [|discriminate]. cbn [guard bind] in E.
    destruct (ecc_pk ca) as [key|]; [|discriminate]. destruct (negb _); [|discriminate]. cbn [guard bind] in E.
    destruct (parse_curve_oid (key_oid key)) as [[bits cv]| |] eqn:P; try discriminate.
    + cbn [bind] in E. destruct (asn1_raw (ecc_raw c)) as [[o t0]| |] eqn:R; try discriminate.
      * cbn [bind] in E. destruct (asn1_raw (rv_bytes o)) as [[b t1]| |] eqn:R1; try discriminate.
        now apply raw_no_panic in R1.
      * now apply raw_no_panic in R.
    + now apply parse_curve_no_panic in P.
Qed.

(** Success marks the certificate and means a valid signature; a failed attempt
    that got as far as looking at the signature marks it invalid.  Missing for the
    full claim: attempts that fail earlier (no usable authority key, impossible
    length or encoding) leave an old mark in place, see C57_marks_refuted. *)
Theorem C57_marks_partial :
  forall k, hash_bytes k ->
  (forall c ca c', bytes_ok (rsa_raw c) -> bytes_ok (rsa_n ca) ->
     (verify_rsa_with_ca k c (Some ca) = (Ok tt, c') ->
        rsa_valid c' = Some true /\ exists content, rsa_signed k (rsa_raw c) (rsa_n ca) (rsa_e ca) content) /\
     (forall o, verify_rsa_with_ca k c (Some ca) = (o, c') -> o <> Ok tt ->
        (length (rsa_raw c) = 194%nat -> key_present (rsa_n ca) (rsa_e ca) -> rsa_valid c' = Some false) /\
        (rsa_valid c' = Some true -> rsa_valid c = Some true))) /\
  (forall c ca c', bytes_ok (ecc_raw c) ->
     (verify_ecc k c (Some ca) = (Ok tt, c') -> ecc_valid c' = Some true /\ ecc_signed k c ca) /\
     (forall o, verify_ecc k c (Some ca) = (o, c') -> o <> Ok tt -> o <> Panic ->
        (ecc_attemptable c ca -> ecc_valid c' = Some false) /\
        (ecc_valid c' = Some true -> ecc_valid c = Some true))).
Proof.
  intros k HK. split.
  - intros c ca c' H HN. cbn [verify_rsa_with_ca].
    destruct (verify_rsa_cases k c (rsa_n ca) (rsa_e ca) (rsa_chr ca) HK H HN)
      as [(L & KP & EC & content & S & ->)|[(W & ->)|(L & KP & NS & ->)]].
    + split; [|intros o E NO; congruence]. intros E. injection E as <-. eauto.
    + split; [discriminate|]. intros o E _. injection E as _ <-. split; [|auto]. intros L KP. exfalso. tauto.
    + split; [discriminate|]. intros o E _. injection E as _ <-. cbn. split; [auto|discriminate].
  - intros c ca c' H.
    destruct (verify_ecc_cases k c ca H) as [(AT & S & ->)|[(AT & NS & [->| ->])|(NA & e & ->)]].
    + split; [|intros o E NO; congruence]. intros E. injection E as <-. auto.
    + split; [discriminate|]. intros o E _ _. injection E as _ <-. cbn. split; [auto|discriminate].
    + split; [discriminate|]. intros o E _ NP. congruence.
    + split; [discriminate|]. intros o E _ _. injection E as _ <-. split; [tauto|auto].
Qed.
Print Assumptions C57_marks_partial.

(** A toy hash and the RSA exponent 1 make a concrete certificate whose
    signature verifies. *)
Definition toy : crypto := mkCrypto (fun m => map u8 (firstn 20 (m ++ zeros 20))) (fun _ m => m) (fun _ x y h r s => Some (r =? s)).

Definition toy_raw (k : crypto) (content car : bytes) : bytes :=
  106 :: firstn 106 content ++ sha1 k content ++ 188 :: skipn 106 content ++ car.

Definition toy_content (chr : Z) (eov : bytes) : bytes :=
  1 :: to_be 8 7 ++ zeros 7 ++ eov ++ to_be 8 chr ++ repeat 255 128 ++ to_be 8 1.

Definition toy_rsa : rsa_cert := mkRsa [] (dec 7) None [] [] (toy_raw toy (toy_content 9 [0; 0; 0; 1]) (to_be 8 7)) None.
Definition toy_ca : rsa_cert := mkRsa (dec 7) (dec 1) None (repeat 255 128) (to_be 8 1) [] (Some true).

Example C57_example :
  hash_bytes toy /\ bytes_ok (rsa_raw toy_rsa) /\ bytes_ok (rsa_n toy_ca) /\ exists c', verify_rsa_with_ca toy toy_rsa (Some toy_ca) = (Ok tt, c') /\ rsa_valid c' = Some true /\ rsa_chr c' = dec 9.
Proof.
  split. { intros m. apply Forall_map, Forall_forall. intros x _. unfold byte_ok, u8. lia. }
  split; [apply bytes_okb_ok; vm_compute; reflexivity|]. split; [apply bytes_okb_ok; vm_compute; reflexivity|].
  eexists. split; [vm_compute; reflexivity|]. split; vm_compute; reflexivity.
Qed.

(** The full claim fails: verifying a certificate that is marked valid with an
    authority that has no key is refused, but the mark stays.  Likewise for ECC. *)
Theorem C57_marks_refuted :
  forall k,
  (exists c ca c' e, rsa_valid c = Some true /\ length (rsa_raw c) = 194%nat /\
     verify_rsa_with_ca k c (Some ca) = (Err e, c') /\ rsa_valid c' = Some true) /\
  (exists c ca c' e, ecc_valid c = Some true /\ (204 <= length (ecc_raw c) <= 341)%nat /\
     verify_ecc k c (Some ca) = (Err e, c') /\ ecc_valid c' = Some true).
Proof.
  intros k. split.
  - exists (mkRsa [] [] None [] [] (zeros 194) (Some true)), (mkRsa [] [] None [] [] [] None). do 2 eexists.
    repeat split.
  - exists (mkEcc 0 [] [] None [] None None None (Some true) (zeros 204)),
      (mkEcc 0 [] [] None [] None None None None []). do 2 eexists.
    split; [reflexivity|]. split; [cbn; lia|]. split; reflexivity.
Qed.
Print Assumptions C57_marks_refuted.
