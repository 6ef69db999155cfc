(** Facts about DER elements and certificates. *)

From Verif Require Import Base Enums DDScalar P_Scalar Asn1 Cert.

(** ** Numbers in base 128 *)

Definition base128_val (ds : bytes) : Z := fold_left (fun a b => a * 128 + b mod 128) ds 0.

(** A minimal base-128 number of at most five bytes and 31 bits. *)
Definition num_ok (ds : bytes) : Prop :=
  (1 <= length ds <= 5)%nat /\ Forall (fun b => 128 <= b) (removelast ds) /\ last ds 0 < 128 /\
  hd 0 ds <> 128 /\ base128_val ds <= 2147483647.

Lemma base128_gen : forall d left first acc v t,
  base128 left first acc d = Ok (v, t) <->
  exists ds, d = ds ++ t /\ (1 <= length ds <= left)%nat /\ Forall (fun b => 128 <= b) (removelast ds) /\
    last ds 0 < 128 /\ (first = true -> hd 0 ds <> 128) /\
    v = fold_left (fun a b => a * 128 + b mod 128) ds acc /\ v <= 2147483647.
Proof.
  induction d as [|b d IH]; intros left first acc v t.
  { split; [discriminate|]. intros ([|x ds] & E & L & _); [cbn in L; lia|discriminate]. }
  destruct left as [|n].
  { split; [discriminate|]. intros (ds & _ & L & _). lia. }
  cbn [base128]. destruct (first && (b =? 128)) eqn:F.
  { split; [discriminate|]. intros ([|x ds] & E & L & _ & _ & H & _); [cbn in L; lia|].
    injection E as -> ->. apply andb_true_iff in F as [-> F]. cbn in H. apply Z.eqb_eq in F. now destruct (H eq_refl). }
  destruct (Z.ltb_spec b 128) as [B|B].
  - destruct (Z.ltb_spec 2147483647 (acc * 128 + b mod 128)) as [M|M].
    + split; [discriminate|]. intros (ds & E & L & Q & La & H & V & VM). exfalso.
      destruct ds as [|x [|y ds]]; [cbn in L; lia| |].
      * injection E as -> ->. cbn in V. lia.
      * injection E as -> ->. cbn [removelast] in Q. inversion Q; lia.
    + split.
      * intros E. injection E as <- <-. exists [b]. cbn. repeat split; auto; lia.
      * intros (ds & E & L & Q & La & H & V & VM). destruct ds as [|x [|y ds]]; [cbn in L; lia| |].
        -- injection E as -> ->. cbn in V. now subst.
        -- injection E as -> ->. cbn [removelast] in Q. inversion Q; lia.
  - rewrite IH. split.
    + intros (ds & -> & L & Q & La & H & V & VM). exists (b :: ds).
      destruct ds as [|y ds]; [cbn in L; lia|].
      cbn [app length removelast last hd fold_left] in *.
      split; [reflexivity|]. split; [lia|]. split; [constructor; auto|]. split; [exact La|].
      split; [|split; auto]. intros ->. cbn in F. destruct (Z.eqb_spec b 128); [discriminate|auto].
    + intros (ds & E & L & Q & La & H & V & VM). destruct ds as [|x ds]; [cbn in L; lia|].
      injection E as <- ->. destruct ds as [|y ds]; [cbn in La; lia|].
      exists (y :: ds). cbn [app length removelast last hd fold_left] in *.
      split; [reflexivity|]. split; [lia|]. split; [now inversion Q|]. split; [exact La|].
      split; [discriminate|]. auto.
Qed.

Lemma base128_iff d v t :
  base128 5 true 0 d = Ok (v, t) <-> exists ds, d = ds ++ t /\ num_ok ds /\ v = base128_val ds.
Proof.
  rewrite base128_gen. unfold num_ok, base128_val. split.
  - intros (ds & -> & L & Q & La & H & -> & VM). exists ds. repeat split; auto; lia.
  - intros (ds & -> & (L & Q & La & H & VM) & ->). exists ds. repeat split; auto; lia.
Qed.

(** ** Identifier and length octets *)

Definition tag_ok (t : bytes) (n : Z) : Prop :=
  (exists b, t = [b] /\ b mod 32 <> 31 /\ n = b mod 32) \/
  (exists b ds, t = b :: ds /\ b mod 32 = 31 /\ num_ok ds /\ n = base128_val ds /\ 31 <= n).

Lemma tag_iff d b n t :
  asn1_tag d = Ok (b, n, t) <-> exists ts, d = ts ++ t /\ tag_ok ts n /\ b = hd 0 ts.
Proof.
  unfold asn1_tag. destruct d as [|x d].
  { split; [discriminate|]. intros (ts & E & [(? & -> & _)|(? & ? & -> & _)] & _); discriminate. }
  destruct (Z.eqb_spec (x mod 32) 31) as [M|M].
  - split.
    + intros E. destruct (base128 5 true 0 d) as [[v r]| |] eqn:U; try discriminate. cbn [bind fst snd] in E.
      destruct (Z.leb_spec 31 v); try discriminate. cbn in E. injection E as <- <- <-.
      apply base128_iff in U as (ds & -> & N & ->). exists (x :: ds). repeat split; auto.
      right. exists x, ds. auto.
    + intros (ts & E & [(y & -> & N & _)|(y & ds & -> & Y & N & -> & G)] & ->).
      * injection E as -> ->. lia.
      * injection E as -> ->.
        rewrite (proj2 (base128_iff (ds ++ t) (base128_val ds) t)) by eauto. cbn [bind fst snd].
        destruct (Z.leb_spec 31 (base128_val ds)); [reflexivity|lia].
  - split.
    + intros E. injection E as <- <- <-. exists [x]. repeat split; auto. left. eauto.
    + intros (ts & E & [(y & -> & N & ->)|(y & ds & -> & Y & _)] & ->).
      * injection E as -> ->. reflexivity.
      * injection E as -> ->. lia.
Qed.

Lemma be_acc_ge : forall ds acc, bytes_ok ds -> 0 <= acc -> acc <= be_acc acc ds.
Proof.
  induction ds as [|b ds IH]; intros acc H A; cbn [be_acc]; [lia|].
  apply bytes_ok_cons in H as [B H]. unfold byte_ok in B. specialize (IH (acc * 256 + b) H). lia.
Qed.

Lemma long_iff : forall m acc d v t, bytes_ok d -> 0 <= acc ->
  long_length m acc d = Ok (v, t) <->
  exists ds, d = ds ++ t /\ length ds = m /\ v = be_acc acc ds /\
    (m <> O -> (0 < acc \/ hd 0 ds <> 0) /\ v < 2147483648).
Proof.
  induction m as [|m IH]; intros acc d v t H A; cbn [long_length].
  { split.
    - intros E. injection E as <- <-. exists []. repeat split; auto; congruence.
    - intros (ds & -> & L & -> & _). destruct ds; [reflexivity|discriminate]. }
  destruct d as [|b d].
  { split; [discriminate|]. intros (ds & E & L & _). destruct ds; discriminate. }
  apply bytes_ok_cons in H as [B H]. unfold byte_ok in B.
  destruct (Z.leb_spec 8388608 acc) as [G|G].
  { split; [discriminate|]. intros (ds & E & L & V & W). exfalso.
    destruct ds as [|x ds]; [discriminate|]. injection E as -> ->.
    destruct (W ltac:(congruence)) as [_ VM]. cbn [be_acc] in V.
    apply bytes_ok_app in H as [H _]. pose proof (be_acc_ge ds (acc * 256 + x) H). lia. }
  destruct (Z.eqb_spec (acc * 256 + b) 0) as [Z0|Z0].
  { split; [discriminate|]. intros (ds & E & L & V & W). exfalso.
    destruct ds as [|x ds]; [discriminate|]. injection E as -> ->.
    destruct (W ltac:(congruence)) as [[P|P] _]; cbn in P; lia. }
  rewrite IH by (auto; lia). split.
  - intros (ds & -> & L & V & W). exists (b :: ds). repeat split; auto; cbn [length hd]; try lia.
    destruct m; [|now destruct (W ltac:(congruence))].
    destruct ds; [|discriminate]. cbn in V. lia.
  - intros (ds & E & L & V & W). destruct ds as [|x ds]; [discriminate|]. injection E as -> ->.
    exists ds. destruct (W ltac:(congruence)) as [_ VM]. repeat split; auto. left. lia.
Qed.

(** DER length octets: short form below 128, else the shortest long form. *)
Definition len_ok (l : bytes) (n : Z) : Prop :=
  (0 <= n < 128 /\ l = [n]) \/
  (128 <= n < 2147483648 /\ exists ds, l = (128 + Z.of_nat (length ds)) :: ds /\ hd 0 ds <> 0 /\ be ds = n).

Lemma length_iff d n t : bytes_ok d ->
  asn1_length d = Ok (n, t) <-> exists l, d = l ++ t /\ len_ok l n.
Proof.
  intros H. unfold asn1_length. destruct d as [|b d].
  { split; [discriminate|]. intros (l & E & [(_ & ->)|(_ & ds & -> & _)]); discriminate. }
  pose proof (proj1 (bytes_ok_cons b d) H) as [B H']. unfold byte_ok in B.
  destruct (Z.ltb_spec b 128) as [S|S].
  - split.
    + intros E. injection E as <- <-. exists [b]. split; auto. left. split; [lia|reflexivity].
    + intros (l & E & [(R & ->)|(R & ds & -> & _)]).
      * injection E; intros; subst; reflexivity.
      * assert (b = 128 + Z.of_nat (length ds)) by exact (f_equal (hd 0) E). lia.
  - destruct (Z.eqb_spec b 128) as [S'|S'].
    { split; [discriminate|]. intros (l & E & [(R & ->)|(R & ds & -> & N & BE)]); exfalso.
      - injection E; intros; subst; lia.
      - assert (b = 128 + Z.of_nat (length ds)) by exact (f_equal (hd 0) E).
        destruct ds; [cbn in N; congruence|cbn [length] in *; lia]. }
    split.
    + intros E. destruct (long_length (Z.to_nat (b - 128)) 0 d) as [[v r]| |] eqn:U; try discriminate.
      cbn [bind fst] in E. destruct (Z.leb_spec 128 v); try discriminate. cbn in E. injection E as <- <-.
      apply long_iff in U as (ds & -> & L & V & W); auto; [|lia].
      destruct (W ltac:(lia)) as [[?|N] VM]; [lia|]. exists (b :: ds). split; auto. right. split; [lia|].
      exists ds. split; [f_equal; lia|auto].
    + intros (l & E & [(R & ->)|(R & ds & -> & N & BE)]); [injection E; intros; lia|].
      assert (Eb : b = 128 + Z.of_nat (length ds)) by exact (f_equal (hd 0) E). assert (Ed : d = ds ++ t) by exact (f_equal (@tl Z) E).
      clear E. subst d. replace (Z.to_nat (b - 128)) with (length ds) by lia.
      rewrite (proj2 (long_iff (length ds) 0 (ds ++ t) n t H' ltac:(lia))).
      * cbn [bind fst]. destruct (Z.leb_spec 128 n); [reflexivity|lia].
      * exists ds. repeat split; auto. lia.
Qed.

(** ** Elements *)

(** A DER element: identifier octets, length octets, contents. *)
Definition element (v : raw_value) : Prop :=
  exists t l, tag_ok t (rv_tag v) /\ rv_id v = hd 0 t /\ len_ok l (Z.of_nat (length (rv_bytes v))) /\
    rv_full v = t ++ l ++ rv_bytes v.

Lemma raw_iff d v rest : bytes_ok d ->
  asn1_raw d = Ok (v, rest) <-> element v /\ d = rv_full v ++ rest.
Proof.
  intros H. unfold asn1_raw. split.
  - intros E. destruct (asn1_tag d) as [[[b n] d1]| |] eqn:T; try discriminate. cbn [bind] in E.
    apply tag_iff in T as (ts & -> & T & ->). apply bytes_ok_app in H as [_ H].
    destruct (asn1_length d1) as [[m d2]| |] eqn:L; try discriminate. cbn [bind] in E.
    apply length_iff in L as (ls & -> & L); auto.
    destruct (Z.leb_spec m (Z.of_nat (length d2))) as [M|M]; try discriminate. cbn [guard bind] in E.
    apply Ok_inj in E. injection E as <- <-.
    assert (M0 : 0 <= m) by (destruct L as [(?&_)|(?&_)]; lia).
    assert (FL : length (firstn (Z.to_nat m) d2) = Z.to_nat m) by (rewrite firstn_length; lia).
    assert (FE : firstn (length (ts ++ ls ++ d2) - length (skipn (Z.to_nat m) d2)) (ts ++ ls ++ d2) =
                 ts ++ ls ++ firstn (Z.to_nat m) d2).
    { rewrite <- (firstn_skipn (Z.to_nat m) d2) at 1 3. rewrite !app_assoc.
      rewrite (app_length _ (skipn (Z.to_nat m) d2)), Nat.add_sub, <- !app_assoc.
      rewrite !app_assoc, firstn_app, firstn_all2 by lia. rewrite Nat.sub_diag, app_nil_r. reflexivity. }
    split.
    + exists ts, ls. cbn [rv_tag rv_id rv_bytes rv_full]. rewrite FL, Z2Nat.id by lia. auto.
    + cbn [rv_full]. rewrite FE, <- !app_assoc, firstn_skipn. reflexivity.
  - intros ((t & l & T & I & L & F) & E). destruct v as [id tg v full]. cbn in *. subst full d id.
    rewrite <- !app_assoc in *.
    rewrite (proj2 (tag_iff _ (hd 0 t) tg (l ++ v ++ rest))) by eauto. cbn [bind].
    apply bytes_ok_app in H as [_ H].
    rewrite (proj2 (length_iff _ (Z.of_nat (length v)) (v ++ rest) H)) by eauto. cbn [bind].
    rewrite app_length. destruct (Z.leb_spec (Z.of_nat (length v)) (Z.of_nat (length v + length rest))); [|lia].
    cbn [guard bind]. rewrite Nat2Z.id.
    rewrite firstn_app, firstn_all, Nat.sub_diag, app_nil_r, skipn_app, skipn_all, Nat.sub_diag.
    cbn [skipn app]. f_equal. f_equal. f_equal. rewrite !app_length.
    replace (_ - length rest)%nat with (length (t ++ l ++ v)) by (rewrite !app_length; lia).
    rewrite !app_assoc, firstn_app, firstn_all, Nat.sub_diag, app_nil_r. reflexivity.
Qed.

Lemma element_ok v : bytes_ok (rv_full v) -> element v -> bytes_ok (rv_bytes v).
Proof. intros H (t & l & _ & _ & _ & E). rewrite E in H. now rewrite !bytes_ok_app in H. Qed.

(** ** Object identifiers *)

Inductive nums : list Z -> bytes -> Prop :=
| nums_nil : nums [] []
| nums_cons ds vs bs : num_ok ds -> nums vs bs -> nums (base128_val ds :: vs) (ds ++ bs).

(** The contents of an object identifier: the first two arcs share a number. *)
Definition oid_enc (o : list Z) (bs : bytes) : Prop :=
  exists v vs, nums (v :: vs) bs /\
    (v < 80 /\ o = v / 40 :: v mod 40 :: vs \/ 80 <= v /\ o = 2 :: v - 80 :: vs).

Lemma oid_tail_iff : forall fuel d vs, (length d <= fuel)%nat -> oid_tail fuel d = Ok vs <-> nums vs d.
Proof.
  induction fuel as [|f IH]; intros d vs L.
  { destruct d; [|cbn in L; lia]. cbn. split.
    - intros E. apply Ok_inj in E. subst. constructor.
    - intros N. inversion N as [|ds ws bs Hn Hs Ev Eb]; [reflexivity|]. destruct ds; [destruct Hn; cbn in *; lia|discriminate]. }
  destruct d as [|b d].
  { cbn. split.
    - intros E. apply Ok_inj in E. subst. constructor.
    - intros N. inversion N as [|ds ws bs Hn Hs Ev Eb]; [reflexivity|]. destruct ds; [destruct Hn; cbn in *; lia|discriminate]. }
  change (oid_tail (S f) (b :: d)) with
    (let* (v, t) := base128 5 true 0 (b :: d) in let* r := oid_tail f t in Ok (v :: r)).
  split.
  - intros E. destruct (base128 5 true 0 (b :: d)) as [[v t]| |] eqn:U; try discriminate. cbn [bind] in E.
    apply base128_iff in U as (ds & U & N & ->).
    destruct (oid_tail f t) eqn:R; try discriminate. cbn [bind] in E. apply Ok_inj in E. subst vs.
    rewrite U in *. rewrite app_length in L. constructor; auto. apply IH; auto. destruct N; lia.
  - intros N. inversion N as [|ds ws bs Hn Hs Ev Eb]. subst vs.
    rewrite (proj2 (base128_iff (ds ++ bs) (base128_val ds) bs)) by eauto. cbn [bind].
    rewrite <- Eb, app_length in L. rewrite (proj2 (IH bs ws ltac:(destruct Hn; lia)) Hs). reflexivity.
Qed.

Lemma parse_oid_iff d o : parse_oid d = Ok o <-> oid_enc o d.
Proof.
  unfold parse_oid, oid_enc. split.
  - intros E. destruct (base128 5 true 0 d) as [[v t]| |] eqn:U; try discriminate. cbn [bind] in E.
    apply base128_iff in U as (ds & -> & N & ->).
    destruct (oid_tail (length (ds ++ t)) t) as [r| |] eqn:R; try discriminate. cbn [bind] in E. apply Ok_inj in E.
    apply oid_tail_iff in R; [|rewrite app_length; lia].
    exists (base128_val ds), r. split; [constructor; auto|].
    destruct (Z.ltb_spec (base128_val ds) 80); subst; [left|right]; auto.
  - intros (v & vs & N & O). inversion N as [|ds ws bs Hn Hs Ev Eb]. subst.
    rewrite (proj2 (base128_iff (ds ++ bs) (base128_val ds) bs)) by eauto. cbn [bind].
    rewrite (proj2 (oid_tail_iff (length (ds ++ bs)) bs vs ltac:(rewrite app_length; lia)) Hs). cbn [bind]. f_equal.
    destruct (Z.ltb_spec (base128_val ds) 80); destruct O as [[? ->]|[? ->]]; auto; lia.
Qed.

Lemma oid_iff id d o rest : bytes_ok d ->
  asn1_oid id d = Ok (o, rest) <->
  exists v, element v /\ d = rv_full v ++ rest /\ rv_id v = id /\ oid_enc o (rv_bytes v).
Proof.
  intros H. unfold asn1_oid. split.
  - intros E. destruct (asn1_raw d) as [[v r]| |] eqn:R; try discriminate. cbn [bind] in E.
    apply raw_iff in R as [V D]; auto.
    destruct (Z.eqb_spec (rv_id v) id); try discriminate. cbn [guard bind] in E.
    destruct (parse_oid (rv_bytes v)) eqn:P; try discriminate. cbn [bind] in E. apply Ok_inj in E. injection E as <- <-.
    exists v. apply parse_oid_iff in P. auto.
  - intros (v & V & D & I & P). rewrite (proj2 (raw_iff d v rest H)) by auto. cbn [bind].
    rewrite I, Z.eqb_refl. cbn [guard bind]. rewrite (proj2 (parse_oid_iff _ _) P). reflexivity.
Qed.

(** ** No panics *)

Lemma base128_no_panic : forall d left first acc, base128 left first acc d <> Panic.
Proof.
  induction d as [|b d IH]; intros [|n] first acc; try discriminate. cbn [base128].
  destruct (first && (b =? 128)); [discriminate|]. destruct (b <? 128).
  - destruct (2147483647 <? _); discriminate.
  - apply IH.
Qed.

Lemma long_no_panic : forall n acc d, long_length n acc d <> Panic.
Proof.
  induction n as [|n IH]; intros acc [|b d]; try discriminate. cbn [long_length].
  destruct (8388608 <=? acc); [discriminate|]. destruct (_ =? 0); [discriminate|apply IH].
Qed.

Lemma raw_no_panic d : asn1_raw d <> Panic.
Proof.
  unfold asn1_raw. destruct (asn1_tag d) as [[[b n] d1]| |] eqn:T; try discriminate.
  - cbn [bind]. destruct (asn1_length d1) as [[m d2]| |] eqn:L; try discriminate.
    + cbn [bind]. destruct (m <=? _); discriminate.
    + exfalso. unfold asn1_length in L. destruct d1 as [|x d1]; [discriminate|].
      destruct (x <? 128); [discriminate|]. destruct (x =? 128); [discriminate|].
      destruct (long_length (Z.to_nat (x - 128)) 0 d1) as [[? ?]| |] eqn:Q; try discriminate.
      * cbn [bind fst] in L. destruct (128 <=? z); discriminate.
      * now apply long_no_panic in Q.
  - exfalso. unfold asn1_tag in T. destruct d as [|x d]; [discriminate|]. destruct (x mod 32 =? 31); [|discriminate].
    destruct (base128 5 true 0 d) as [[? ?]| |] eqn:Q; try discriminate.
    + cbn [bind fst] in T. destruct (31 <=? z); discriminate.
    + now apply base128_no_panic in Q.
Qed.

Lemma oid_tail_no_panic : forall f d, oid_tail f d <> Panic.
Proof.
  induction f as [|f IH]; intros [|b d]; try discriminate.
  change (oid_tail (S f) (b :: d)) with
    (let* (v, t) := base128 5 true 0 (b :: d) in let* r := oid_tail f t in Ok (v :: r)).
  destruct (base128 5 true 0 (b :: d)) as [[? t]| |] eqn:Q; try discriminate.
  - cbn [bind]. destruct (oid_tail f t) eqn:R; try discriminate. now apply IH in R.
  - now apply base128_no_panic in Q.
Qed.

Lemma oid_no_panic id d : asn1_oid id d <> Panic.
Proof.
  unfold asn1_oid. destruct (asn1_raw d) as [[v r]| |] eqn:R; try discriminate.
  - cbn [bind]. destruct (rv_id v =? id); [|discriminate]. cbn [guard bind].
    destruct (parse_oid (rv_bytes v)) eqn:P; try discriminate. exfalso. unfold parse_oid in P.
    destruct (base128 5 true 0 (rv_bytes v)) as [[? t]| |] eqn:Q; try discriminate.
    + cbn [bind] in P. destruct (oid_tail _ t) eqn:O; try discriminate. now apply oid_tail_no_panic in O.
    + now apply base128_no_panic in Q.
  - now apply raw_no_panic in R.
Qed.

Lemma raw_of_length_no_panic n d : raw_of_length n d <> Panic.
Proof.
  unfold raw_of_length. destruct (asn1_raw d) as [[v r]| |] eqn:R; try discriminate.
  - cbn [bind]. destruct (_ =? _)%nat; discriminate.
  - now apply raw_no_panic in R.
Qed.

Lemma key_no_panic d : unmarshal_key d <> Panic.
Proof.
  unfold unmarshal_key. destruct (asn1_oid 6 d) as [[o r]| |] eqn:O; try discriminate.
  - cbn [bind]. destruct (asn1_raw r) as [[v ?]| |] eqn:R; try discriminate.
    + cbn [bind]. destruct (negb _ && _); [|discriminate]. cbn [guard bind].
      destruct (_ =? _)%nat; discriminate.
    + now apply raw_no_panic in R.
  - now apply oid_no_panic in O.
Qed.

Lemma ecc_no_panic d : unmarshal_ecc d <> Panic.
Proof.
  unfold unmarshal_ecc. destruct (negb _); [cbn [guard bind]|discriminate].
  repeat (match goal with
  | |- context [bind (asn1_raw ?x) _] =>
      let R := fresh in destruct (asn1_raw x) as [[? ?]| |] eqn:R; cbn [bind];
      [clear R|discriminate|exfalso; exact (raw_no_panic _ R)]
  | |- context [bind (raw_of_length ?n ?x) _] =>
      let R := fresh in destruct (raw_of_length n x) as [[? ?]| |] eqn:R; cbn [bind];
      [clear R|discriminate|exfalso; exact (raw_of_length_no_panic _ _ R)]
  | |- context [bind (unmarshal_key ?x) _] =>
      let R := fresh in destruct (unmarshal_key x) eqn:R; cbn [bind];
      [clear R|discriminate|exfalso; exact (key_no_panic _ R)]
  | |- context [bind (sec_time ?x) _] =>
      unfold sec_time at 1; destruct (length x =? 4)%nat; cbn [guard bind]; [|discriminate]
  end).
  destruct (_ =? _)%nat; discriminate.
Qed.

(** ** Decimal numbers *)

Lemma dec_inj a b : 0 <= a -> 0 <= b -> dec a = dec b -> a = b.
Proof.
  intros A B E. unfold dec in E.
  assert (I : itoa a = itoa b).
  { revert E. generalize (itoa a) (itoa b). induction l as [|x l IH]; intros [|y m] E; try discriminate; auto.
    assert (E1 : 48 + x = 48 + y) by exact (f_equal (hd 0) E).
    assert (E2 : map (Z.add 48) l = map (Z.add 48) m) by exact (f_equal (@tl Z) E). f_equal; [lia|auto]. }
  destruct (itoa_spec a A) as (_ & Ea & _). destruct (itoa_spec b B) as (_ & Eb & _). congruence.
Qed.
