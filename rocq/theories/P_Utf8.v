(** UTF-8: decoding, trimming and repairing. *)

From Verif Require Import Base Utf8.

Definition scalar (r : Z) : Prop := 0 <= r < 55296 \/ 57344 <= r <= 1114111.

Lemma scalarb_iff r : scalarb r = true <-> scalar r.
Proof. unfold scalarb, scalar. lia. Qed.

Lemma encode_rune_scalar r :
  scalar r ->
  encode_rune r =
  if r <? 128 then [r]
  else if r <? 2048 then [192 + r / 64; 128 + r mod 64]
  else if r <? 65536 then [224 + r / 4096; 128 + r / 64 mod 64; 128 + r mod 64]
  else [240 + r / 262144; 128 + r / 4096 mod 64; 128 + r / 64 mod 64; 128 + r mod 64].
Proof. intros H. apply scalarb_iff in H. unfold encode_rune. rewrite H. reflexivity. Qed.

Lemma encode_rune_length r : (1 <= length (encode_rune r) <= 4)%nat.
Proof.
  unfold encode_rune. destruct (scalarb r);
    repeat match goal with |- context [if ?c then _ else _] => destruct c end; simpl; lia.
Qed.

Lemma encode_rune_bytes r : bytes_ok (encode_rune r).
Proof.
  assert (A : forall r, scalar r -> bytes_ok (encode_rune r)).
  { clear r. intros r H. rewrite encode_rune_scalar by auto. unfold scalar in H.
    destruct (Z.ltb_spec r 128); [repeat constructor; lia|].
    destruct (Z.ltb_spec r 2048); [repeat constructor; lia|].
    destruct (Z.ltb_spec r 65536); repeat constructor; unfold byte_ok; lia. }
  destruct (scalarb r) eqn:E.
  - apply A, scalarb_iff, E.
  - replace (encode_rune r) with (encode_rune rune_error); [apply A; unfold scalar, rune_error; lia|].
    unfold encode_rune. rewrite E. reflexivity.
Qed.

Lemma encode_rune_first r :
  scalar r -> exists b t, encode_rune r = b :: t /\ rune_start b = true /\
    forallb (fun c => negb (rune_start c)) t = true.
Proof.
  intros H. rewrite encode_rune_scalar by auto. unfold scalar, rune_start, between in *.
  destruct (Z.ltb_spec r 128); [|destruct (Z.ltb_spec r 2048); [|destruct (Z.ltb_spec r 65536)]];
    eexists; eexists; (split; [reflexivity|]); cbn [forallb]; split; try reflexivity; lia.
Qed.

(** Decoding an encoded rune. *)
Lemma decode_encode r rest :
  scalar r -> decode_rune (encode_rune r ++ rest) = (r, length (encode_rune r)).
Proof.
  intros H. rewrite encode_rune_scalar by auto. unfold scalar in H.
  destruct (Z.ltb_spec r 128).
  { cbn [app decode_rune length]. destruct (Z.ltb_spec r 128); [reflexivity|lia]. }
  destruct (Z.ltb_spec r 2048).
  { cbn [app decode_rune length]. unfold between.
    destruct (Z.ltb_spec (192 + r / 64) 128); [lia|].
    replace ((194 <=? 192 + r / 64) && (192 + r / 64 <=? 223)) with true by lia.
    replace ((128 <=? 128 + r mod 64) && (128 + r mod 64 <=? 191)) with true by lia.
    f_equal. lia. }
  destruct (Z.ltb_spec r 65536).
  { cbn [app decode_rune length]. unfold between.
    destruct (Z.ltb_spec (224 + r / 4096) 128); [lia|].
    replace ((194 <=? 224 + r / 4096) && (224 + r / 4096 <=? 223)) with false by lia.
    replace ((224 <=? 224 + r / 4096) && (224 + r / 4096 <=? 239)) with true by lia.
    replace ((128 <=? 128 + r mod 64) && (128 + r mod 64 <=? 191)) with true by lia.
    replace (((if 224 + r / 4096 =? 224 then 160 else 128) <=? 128 + r / 64 mod 64) &&
             (128 + r / 64 mod 64 <=? (if 224 + r / 4096 =? 237 then 159 else 191))) with true.
    2: { destruct (Z.eqb_spec (224 + r / 4096) 224); destruct (Z.eqb_spec (224 + r / 4096) 237); lia. }
    cbn [andb]. f_equal. lia. }
  cbn [app decode_rune length]. unfold between.
  destruct (Z.ltb_spec (240 + r / 262144) 128); [lia|].
  replace ((194 <=? 240 + r / 262144) && (240 + r / 262144 <=? 223)) with false by lia.
  replace ((224 <=? 240 + r / 262144) && (240 + r / 262144 <=? 239)) with false by lia.
  replace ((240 <=? 240 + r / 262144) && (240 + r / 262144 <=? 244)) with true by lia.
  replace ((128 <=? 128 + r mod 64) && (128 + r mod 64 <=? 191)) with true by lia.
  replace ((128 <=? 128 + r / 64 mod 64) && (128 + r / 64 mod 64 <=? 191)) with true by lia.
  replace (((if 240 + r / 262144 =? 240 then 144 else 128) <=? 128 + r / 4096 mod 64) &&
           (128 + r / 4096 mod 64 <=? (if 240 + r / 262144 =? 244 then 143 else 191))) with true.
  2: { destruct (Z.eqb_spec (240 + r / 262144) 240); destruct (Z.eqb_spec (240 + r / 262144) 244); lia. }
  cbn [andb]. f_equal. lia.
Qed.

(** Decoding yields an encoded rune or (RuneError, 1). *)
Lemma decode_rune_spec b t :
  let '(r, n) := decode_rune (b :: t) in
  (r = rune_error /\ n = 1%nat) \/
  (scalar r /\ n = length (encode_rune r) /\
   firstn n (b :: t) = encode_rune r /\ (n <= length (b :: t))%nat) \/
  (b < 0).
Proof.
  destruct (Z.ltb_spec b 0) as [Hneg|Hpos].
  { destruct (decode_rune (b :: t)); auto. }
  cbn [decode_rune].
  destruct (Z.ltb_spec b 128).
  { right; left. assert (S : scalar b) by (unfold scalar; lia).
    rewrite encode_rune_scalar by auto. destruct (Z.ltb_spec b 128); [|lia].
    repeat split; auto. simpl; lia. }
  unfold between.
  destruct ((194 <=? b) && (b <=? 223)) eqn:E2.
  { destruct t as [|b1 t]; [auto|].
    destruct ((128 <=? b1) && (b1 <=? 191)) eqn:F; [|auto]. right; left.
    set (r := (b - 192) * 64 + (b1 - 128)).
    assert (S : scalar r) by (unfold scalar, r; lia).
    rewrite encode_rune_scalar by auto.
    destruct (Z.ltb_spec r 128); [unfold r in *; lia|].
    destruct (Z.ltb_spec r 2048); [|unfold r in *; lia].
    repeat split; auto; [|simpl; lia]. cbn [firstn]. unfold r. f_equal; [lia|f_equal; lia]. }
  destruct ((224 <=? b) && (b <=? 239)) eqn:E3.
  { destruct t as [|b1 [|b2 t]]; [auto|auto|].
    match goal with |- context [if ?c then _ else _] => destruct c eqn:F end; [|auto].
    match goal with H : context [if ?x =? ?y then 160 else 128] |- _ =>
      destruct (Z.eqb_spec x y); destruct (Z.eqb_spec x 237) end; try lia.
    all: right; left; set (r := (b - 224) * 4096 + (b1 - 128) * 64 + (b2 - 128));
      assert (S : scalar r) by (unfold scalar, r; lia);
      rewrite encode_rune_scalar by auto;
      destruct (Z.ltb_spec r 128); [unfold r in *; lia|];
      destruct (Z.ltb_spec r 2048); [unfold r in *; lia|];
      destruct (Z.ltb_spec r 65536); [|unfold r in *; lia];
      repeat split; auto; [|simpl; lia]; cbn [firstn]; unfold r;
      f_equal; [lia|f_equal; [lia|f_equal; lia]]. }
  destruct ((240 <=? b) && (b <=? 244)) eqn:E4; [|auto].
  destruct t as [|b1 [|b2 [|b3 t]]]; [auto|auto|auto|].
  match goal with |- context [if ?c then _ else _] => destruct c eqn:F end; [|auto].
  match goal with H : context [if ?x =? ?y then 144 else 128] |- _ =>
    destruct (Z.eqb_spec x y); destruct (Z.eqb_spec x 244) end; try lia.
  all: right; left; set (r := (b - 240) * 262144 + (b1 - 128) * 4096 + (b2 - 128) * 64 + (b3 - 128));
    assert (S : scalar r) by (unfold scalar, r; lia);
    rewrite encode_rune_scalar by auto;
    destruct (Z.ltb_spec r 128); [unfold r in *; lia|];
    destruct (Z.ltb_spec r 2048); [unfold r in *; lia|];
    destruct (Z.ltb_spec r 65536); [unfold r in *; lia|];
    repeat split; auto; [|simpl; lia]; cbn [firstn]; unfold r;
    f_equal; [lia|f_equal; [lia|f_equal; [lia|f_equal; lia]]].
Qed.

Lemma decode_rune_cases l :
  bytes_ok l -> l <> [] ->
  exists r n, decode_rune l = (r, n) /\ (1 <= n <= length l)%nat /\
    ((r = rune_error /\ n = 1%nat) \/
     (scalar r /\ n = length (encode_rune r) /\ l = encode_rune r ++ skipn n l)).
Proof.
  intros H N. destruct l as [|b t]; [congruence|].
  apply bytes_ok_cons in H as [Hb _]. unfold byte_ok in Hb.
  pose proof (decode_rune_spec b t) as S. destruct (decode_rune (b :: t)) as [r n].
  exists r, n. split; [auto|]. destruct S as [[-> ->]|[(S1 & S2 & S3 & S4)|S]]; [| |lia].
  - split; [simpl; lia|auto].
  - pose proof (encode_rune_length r). split; [lia|]. right. repeat split; auto.
    rewrite <- S3. symmetry. apply firstn_skipn.
Qed.

(** Decoding looks no further than a following rune start. *)
Lemma decode_rune_app p q :
  p <> [] -> match q with [] => True | c :: _ => rune_start c = true end ->
  decode_rune (p ++ q) = decode_rune p.
Proof.
  intros Hp Hq. destruct p as [|b p]; [congruence|]. cbn [app decode_rune].
  assert (C : match q with [] => True | c :: _ => between 128 191 c = false end).
  { destruct q; auto. unfold rune_start in Hq. apply negb_true_iff in Hq. auto. }
  destruct (b <? 128); [reflexivity|].
  destruct (between 194 223 b).
  { destruct p as [|b1 p]; [|reflexivity]. cbn [app]. destruct q as [|c q]; [reflexivity|].
    rewrite C. reflexivity. }
  destruct (between 224 239 b).
  { destruct p as [|b1 [|b2 p]]; cbn [app]; [| |reflexivity].
    - destruct q as [|c [|d q]]; try reflexivity.
      replace (between (if b =? 224 then 160 else 128) (if b =? 237 then 159 else 191) c)
        with false; [reflexivity|].
      unfold between in *. destruct (b =? 224); destruct (b =? 237); lia.
    - destruct q as [|c q]; [reflexivity|]. rewrite C, andb_false_r. reflexivity. }
  destruct (between 240 244 b); [|reflexivity].
  destruct p as [|b1 [|b2 [|b3 p]]]; cbn [app]; [| | |reflexivity].
  - destruct q as [|c [|d [|e q]]]; try reflexivity.
    replace (between (if b =? 240 then 144 else 128) (if b =? 244 then 143 else 191) c)
      with false; [reflexivity|].
    unfold between in *. destruct (b =? 240); destruct (b =? 244); lia.
  - destruct q as [|c [|d q]]; try reflexivity.
    rewrite C, andb_false_r. reflexivity.
  - destruct q as [|c q]; [reflexivity|]. rewrite C, andb_false_r. reflexivity.
Qed.

(** ** Valid UTF-8, specified by encoding *)

Definition utf8 (rs : list Z) : bytes := concat (map encode_rune rs).

Definition valid_text (l : bytes) : Prop := exists rs, Forall scalar rs /\ l = utf8 rs.

Lemma utf8_app a b : utf8 (a ++ b) = utf8 a ++ utf8 b.
Proof. unfold utf8. rewrite map_app, concat_app. reflexivity. Qed.

Lemma utf8_bytes rs : bytes_ok (utf8 rs).
Proof.
  induction rs as [|r rs IH]; [constructor|]. cbn. apply bytes_ok_app; split; auto using encode_rune_bytes.
Qed.

Lemma utf8_start rs : Forall scalar rs ->
  match utf8 rs with [] => rs = [] | c :: _ => rune_start c = true end.
Proof.
  intros H. destruct rs as [|r rs]; [reflexivity|]. inversion H; subst.
  cbn. destruct (encode_rune_first r) as (b & t & E & S & _); auto. rewrite E. exact S.
Qed.

Lemma skipn_app_exact {A} (l m : list A) n : n = length l -> skipn n (l ++ m) = m.
Proof. intros ->. rewrite skipn_app, skipn_all, Nat.sub_diag. reflexivity. Qed.

Lemma firstn_app_exact {A} (l m : list A) n : n = length l -> firstn n (l ++ m) = l.
Proof. intros ->. rewrite firstn_app, firstn_all, Nat.sub_diag, firstn_O, app_nil_r. reflexivity. Qed.

(** ** to_valid *)

Lemma to_valid_spec f inv l :
  bytes_ok l -> (length l <= f)%nat -> exists rs, Forall scalar rs /\ to_valid f inv l = utf8 rs.
Proof.
  revert inv l; induction f as [|f IH]; intros inv l H L.
  { destruct l; [|simpl in L; lia]. exists []. split; [constructor|reflexivity]. }
  destruct l as [|b t]. { exists []. split; [constructor|reflexivity]. }
  destruct (decode_rune_cases (b :: t) H) as (r & n & E & N & C); [discriminate|].
  cbn [to_valid]. rewrite E.
  destruct C as [[-> ->]|(S & En & El)].
  - rewrite !Z.eqb_refl. cbn [Nat.eqb andb].
    destruct (IH true (skipn 1 (b :: t))) as (rs & F & Q).
    { apply bytes_ok_skipn; auto. } { simpl in *; lia. }
    rewrite Q. destruct inv; [exists rs; auto|].
    exists (rune_error :: rs). split; [constructor; auto|reflexivity].
    unfold scalar, rune_error; lia.
  - destruct (IH false (skipn n (b :: t))) as (rs & F & Q).
    { apply bytes_ok_skipn; auto. } { rewrite skipn_length; lia. }
    destruct ((r =? rune_error) && (n =? 1)%nat) eqn:G.
    { apply andb_prop in G as [G1 G2]. apply Z.eqb_eq in G1. apply Nat.eqb_eq in G2.
      subst r. rewrite G2 in En. discriminate En. }
    rewrite Q. exists (r :: rs). split; [constructor; auto|].
    cbn. f_equal. rewrite El at 1. rewrite En. apply firstn_app_exact. reflexivity.
Qed.

Lemma to_valid_app f inv p q :
  bytes_ok p -> Forall scalar q -> (length p + length (utf8 q) <= f)%nat ->
  exists ps, Forall scalar ps /\ to_valid f inv (p ++ utf8 q) = utf8 (ps ++ q) /\
    (p = [] -> ps = []) /\
    (forall r rest, scalar r -> p = encode_rune r ++ rest -> exists ps', ps = r :: ps').
Proof.
  revert inv p; induction f as [|f IH]; intros inv p H Hq L.
  { destruct p; [|simpl in L; lia]. destruct q as [|r q].
    - exists []. repeat split; auto; try constructor. intros r rest _ E.
      pose proof (encode_rune_length r). symmetry in E. apply app_eq_nil in E as [E _].
      rewrite E in *. simpl in *; lia.
    - cbn in L. rewrite app_length in L. pose proof (encode_rune_length r). lia. }
  destruct p as [|b t].
  - (* only the valid suffix is left *)
    exists []. split; [constructor|]. split; [|split; [auto|]].
    + cbn [app]. clear IH. clear H. revert inv q Hq L.
      assert (A : forall k inv q, Forall scalar q -> (length (utf8 q) <= k)%nat ->
                   to_valid k inv (utf8 q) = utf8 q).
      { induction k as [|k IHk]; intros inv q Hq L.
        - destruct q as [|r q]; [reflexivity|].
          cbn in L. rewrite app_length in L. pose proof (encode_rune_length r). lia.
        - destruct q as [|r q]; [reflexivity|]. inversion Hq; subst.
          change (utf8 (r :: q)) with (encode_rune r ++ utf8 q) in *.
          pose proof (decode_encode r (utf8 q) H1) as D.
          pose proof (encode_rune_length r) as LL.
          destruct (encode_rune r ++ utf8 q) as [|b' t'] eqn:E.
          { apply app_eq_nil in E as [E _]. rewrite E in LL. simpl in LL; lia. }
          cbn [to_valid]. rewrite D.
          destruct ((r =? rune_error) && (length (encode_rune r) =? 1)%nat) eqn:G.
          { apply andb_prop in G as [G1 G2]. apply Z.eqb_eq in G1. subst r. discriminate G2. }
          rewrite <- E. rewrite firstn_app_exact, skipn_app_exact by auto.
          rewrite IHk; auto. rewrite <- E in L. rewrite app_length in L. lia. }
      intros inv q Hq L. apply A; auto.
    + intros r rest _ E. pose proof (encode_rune_length r). symmetry in E.
      apply app_eq_nil in E as [E _]. rewrite E in *. simpl in *; lia.
  - set (p := b :: t) in *.
    assert (ST : match utf8 q with [] => True | c :: _ => rune_start c = true end).
    { pose proof (utf8_start q Hq). destruct (utf8 q); auto. }
    assert (D : decode_rune (p ++ utf8 q) = decode_rune p)
      by (apply decode_rune_app; [discriminate|auto]).
    destruct (decode_rune_cases p H) as (r & n & E & N & C); [discriminate|].
    rewrite E in D.
    assert (U : to_valid (S f) inv (p ++ utf8 q) =
      if (r =? rune_error) && (n =? 1)%nat
      then (if inv then [] else [239; 191; 189]) ++ to_valid f true (skipn 1 (p ++ utf8 q))
      else firstn n (p ++ utf8 q) ++ to_valid f false (skipn n (p ++ utf8 q))).
    { unfold p in *. cbn [app] in *. cbn [to_valid]. rewrite D. reflexivity. }
    rewrite U. clear U.
    destruct C as [[-> ->]|(S & En & El)].
    + rewrite !Z.eqb_refl. cbn [Nat.eqb andb].
      destruct (IH true (skipn 1 p)) as (ps & F & Q & _).
      { apply bytes_ok_skipn; auto. } { auto. } { rewrite skipn_length. simpl in *; lia. }
      assert (K : skipn 1 (p ++ utf8 q) = skipn 1 p ++ utf8 q) by (unfold p; reflexivity).
      rewrite K, Q.
      assert (NR : forall r rest, scalar r -> p = encode_rune r ++ rest -> r = rune_error /\ False).
      { intros r rest Sr Er. rewrite Er, decode_encode in E by auto.
        injection E as E1 E2. subst r. discriminate E2. }
      destruct inv.
      * exists ps. repeat split; auto; [discriminate|].
        intros r rest Sr Er. destruct (NR r rest Sr Er) as [_ []].
      * exists (rune_error :: ps). repeat split; auto; try discriminate.
        -- constructor; auto. unfold scalar, rune_error; lia.
        -- intros r rest Sr Er. destruct (NR r rest Sr Er) as [_ []].
    + destruct ((r =? rune_error) && (n =? 1)%nat) eqn:G.
      { apply andb_prop in G as [G1 G2]. apply Z.eqb_eq in G1. apply Nat.eqb_eq in G2.
        subst r. rewrite G2 in En. discriminate En. }
      destruct (IH false (skipn n p)) as (ps & F & Q & _).
      { apply bytes_ok_skipn; auto. } { auto. } { rewrite skipn_length. lia. }
      rewrite skipn_app. replace (n - length p)%nat with 0%nat by lia. cbn [skipn].
      rewrite Q. exists (r :: ps). repeat split; auto; try discriminate.
      * change (utf8 ((r :: ps) ++ q)) with (encode_rune r ++ utf8 (ps ++ q)).
        f_equal. rewrite firstn_app. replace (n - length p)%nat with 0%nat by lia.
        rewrite firstn_O, app_nil_r. rewrite El at 1. rewrite En. apply firstn_app_exact. reflexivity.
      * intros r' rest Sr Er. rewrite Er, decode_encode in E by auto.
        injection E as E1 E2. subst r'. eauto.
Qed.

(** A string accepted by [valid_utf8] is valid text. *)
Lemma valid_utf8_spec f l :
  bytes_ok l -> (length l <= f)%nat -> valid_utf8 f l = true -> valid_text l.
Proof.
  revert l; induction f as [|f IH]; intros l H L V.
  { destruct l; [|simpl in L; lia]. exists []. split; [constructor|reflexivity]. }
  destruct l as [|b t]. { exists []. split; [constructor|reflexivity]. }
  destruct (decode_rune_cases (b :: t) H) as (r & n & E & N & C); [discriminate|].
  cbn [valid_utf8] in V. rewrite E in V.
  destruct C as [[-> ->]|(S & En & El)].
  - discriminate V.
  - destruct ((r =? rune_error) && (n =? 1)%nat); [discriminate|].
    destruct (IH (skipn n (b :: t))) as (rs & F & Q); auto using bytes_ok_skipn.
    { rewrite skipn_length; lia. }
    exists (r :: rs). split; [constructor; auto|]. rewrite El, Q. reflexivity.
Qed.

Lemma make_valid_text l : bytes_ok l -> valid_text (make_valid l).
Proof.
  intros H. unfold make_valid. destruct (valid_utf8 (length l) l) eqn:V.
  - eapply valid_utf8_spec; eauto.
  - destruct (to_valid_spec (length l) false l H) as (rs & F & Q); auto. exists rs; auto.
Qed.

(** ** Trimming *)

Lemma decode_last_spec l :
  bytes_ok l -> l <> [] ->
  exists r n, decode_last_rune l = (r, n) /\ (1 <= n <= length l)%nat /\
    ((r = rune_error /\ n = 1%nat) \/
     (scalar r /\ n = length (encode_rune r) /\ l = firstn (length l - n) l ++ encode_rune r)).
Proof.
  intros H N. unfold decode_last_rune. set (n := length l).
  assert (Hn : (1 <= n)%nat) by (destruct l; [congruence|subst n; simpl; lia]).
  destruct n as [|m] eqn:En; [lia|]. rewrite <- En in *.
  set (b := nth (n - 1) l 0).
  assert (Hb : byte_ok b) by (apply nth_byte_ok; auto; lia).
  destruct (Z.ltb_spec b 128) as [Hlt|Hge].
  - exists b, 1%nat. split; [auto|]. split; [lia|]. right. unfold byte_ok in Hb.
    assert (S : scalar b) by (unfold scalar; lia).
    rewrite encode_rune_scalar by auto. destruct (Z.ltb_spec b 128); [|lia].
    repeat split; auto.
    rewrite <- (firstn_skipn (n - 1) l) at 1. f_equal.
    pose proof (sub_1 l (n - 1)) as S1. unfold sub in S1.
    fold b in S1. rewrite <- S1 by lia. symmetry. apply firstn_all2. rewrite skipn_length. lia.
  - assert (Fin : forall k, (2 <= k <= n)%nat ->
      let x := (let '(r, s) := decode_rune (skipn (n - k) l) in
                if (s =? k)%nat then (r, s) else (rune_error, 1%nat)) in
      exists r n0, x = (r, n0) /\ (1 <= n0 <= n)%nat /\
        ((r = rune_error /\ n0 = 1%nat) \/
         (scalar r /\ n0 = length (encode_rune r) /\ l = firstn (n - n0) l ++ encode_rune r))).
    { intros k Hk x. unfold x. clear x.
      assert (LK : length (skipn (n - k) l) = k) by (rewrite skipn_length; lia).
      destruct (decode_rune_cases (skipn (n - k) l)) as (r & s & E & Ns & C).
      { apply bytes_ok_skipn; auto. } { intros Q. rewrite Q in LK. simpl in LK; lia. }
      rewrite E. destruct (Nat.eqb_spec s k) as [->|].
      - exists r, k. split; [auto|]. split; [lia|].
        destruct C as [[-> ->]|(S & Es & El)]; [lia|]. right. repeat split; auto.
        rewrite <- (firstn_skipn (n - k) l) at 1. f_equal. rewrite El.
        rewrite skipn_all2 by lia. apply app_nil_r.
      - exists rune_error, 1%nat. split; [auto|]. split; [lia|]. left; auto. }
    destruct ((2 <=? n)%nat && rune_start (nth (n - 2) l 0)) eqn:T2.
    { apply Fin. lia. }
    destruct ((3 <=? n)%nat && rune_start (nth (n - 3) l 0)) eqn:T3.
    { apply Fin. lia. }
    destruct ((4 <=? n)%nat && rune_start (nth (n - 4) l 0)) eqn:T4.
    { apply Fin. lia. }
    exists rune_error, 1%nat. split; [auto|]. split; [lia|]. left; auto.
Qed.

Lemma in_cutset_error : in_cutset rune_error = true.
Proof. reflexivity. Qed.

Lemma trim_right_spec f l :
  bytes_ok l -> (length l <= f)%nat ->
  bytes_ok (trim_right f l) /\ (exists s, l = trim_right f l ++ s) /\
  (trim_right f l = [] \/
   exists p r, trim_right f l = p ++ encode_rune r /\ scalar r /\ in_cutset r = false).
Proof.
  revert l; induction f as [|f IH]; intros l H L.
  { destruct l; [|simpl in L; lia]. repeat split; [constructor|exists []; reflexivity|left; reflexivity]. }
  destruct l as [|b t]. { repeat split; [constructor|exists []; reflexivity|left; reflexivity]. }
  set (l := b :: t) in *.
  destruct (decode_last_spec l H) as (r & n & E & N & C); [discriminate|].
  assert (U : trim_right (S f) l = if in_cutset r then trim_right f (firstn (length l - n) l) else l).
  { unfold l in *. cbn [trim_right]. rewrite E. reflexivity. }
  rewrite U. destruct (in_cutset r) eqn:I.
  - destruct (IH (firstn (length l - n) l)) as (B & (s & Q) & R).
    { apply bytes_ok_firstn; auto. } { rewrite firstn_length. lia. }
    split; [auto|]. split; auto. exists (s ++ skipn (length l - n) l).
    rewrite app_assoc, <- Q. symmetry. apply firstn_skipn.
  - split; [auto|]. split; [exists []; symmetry; apply app_nil_r|]. right.
    destruct C as [[-> _]|(S & En & El)]; [discriminate I|]. eauto.
Qed.

Lemma trim_left_spec f p q :
  bytes_ok p -> bytes_ok q ->
  match q with [] => True | c :: _ => rune_start c = true end ->
  (q = [] \/ exists r rest, q = encode_rune r ++ rest /\ scalar r /\ in_cutset r = false) ->
  (length p <= f)%nat ->
  exists p', trim_left f (p ++ q) = p' ++ q /\ bytes_ok p' /\ (exists s, p = s ++ p') /\
    (p' = [] \/ exists r rest, p' = encode_rune r ++ rest /\ scalar r /\ in_cutset r = false).
Proof.
  revert p; induction f as [|f IH]; intros p Hp Hq Hs Hc L.
  { destruct p; [|simpl in L; lia]. exists []. split; [reflexivity|]. split; [constructor|].
    split; [exists []; reflexivity|auto]. }
  destruct p as [|b t].
  - exists []. split; [|split; [constructor|split; [exists []; reflexivity|auto]]]. cbn [app].
    destruct Hc as [->|(r & rest & -> & S & I)]; [reflexivity|].
    pose proof (decode_encode r rest S) as D. pose proof (encode_rune_length r).
    destruct (encode_rune r ++ rest) as [|b t] eqn:E.
    { apply app_eq_nil in E as [E _]. rewrite E in *. simpl in *; lia. }
    cbn [trim_left]. rewrite D, I. reflexivity.
  - set (p := b :: t) in *.
    assert (D : decode_rune (p ++ q) = decode_rune p) by (apply decode_rune_app; [discriminate|auto]).
    destruct (decode_rune_cases p Hp) as (r & n & E & N & C); [discriminate|]. rewrite E in D.
    assert (U : trim_left (S f) (p ++ q) = if in_cutset r then trim_left f (skipn n (p ++ q)) else p ++ q).
    { unfold p in *. cbn [app] in *. cbn [trim_left]. rewrite D. reflexivity. }
    rewrite U. destruct (in_cutset r) eqn:I.
    + rewrite skipn_app. replace (n - length p)%nat with 0%nat by lia. cbn [skipn].
      destruct (IH (skipn n p)) as (p' & Q & B & (s & Es) & R); auto.
      { apply bytes_ok_skipn; auto. } { rewrite skipn_length; lia. }
      exists p'. repeat split; auto. exists (firstn n p ++ s).
      rewrite <- app_assoc, <- Es. symmetry. apply firstn_skipn.
    + exists p. repeat split; auto; [exists []; reflexivity|]. right.
      destruct C as [[-> _]|(S & En & El)]; [discriminate I|]. exists r, (skipn n p); auto.
Qed.

(** The trimmed string: empty, or its first and last runes are valid and outside
    the cutset. *)
Lemma trim_spec l :
  bytes_ok l ->
  bytes_ok (trim l) /\
  (trim l = [] \/
   exists p r, trim l = p ++ encode_rune r /\ bytes_ok p /\ scalar r /\ in_cutset r = false /\
     (p = [] \/ exists r0 rest, p = encode_rune r0 ++ rest /\ scalar r0 /\ in_cutset r0 = false)).
Proof.
  intros H. unfold trim.
  destruct (trim_right_spec (length l) l H) as (B & _ & C); auto.
  destruct C as [E|(p & r & E & S & I)].
  - rewrite E. cbn [length trim_left]. split; [constructor|left; reflexivity].
  - rewrite E in B |- *. apply bytes_ok_app in B as [Bp Bq].
    destruct (trim_left_spec (length (p ++ encode_rune r)) p (encode_rune r)) as (p' & Q & B' & _ & R); auto.
    + destruct (encode_rune_first r S) as (b & t & Eb & Sb & _). rewrite Eb. exact Sb.
    + right. exists r, []. rewrite app_nil_r. auto.
    + rewrite app_length. lia.
    + rewrite Q. split; [apply bytes_ok_app; auto|]. right. exists p', r. auto 10.
Qed.

(** The result of trimming and repairing: valid text whose first and last code
    points are outside the cutset. *)
Definition clean_text (l : bytes) : Prop :=
  exists rs, Forall scalar rs /\ l = utf8 rs /\
    (rs = [] \/ (in_cutset (hd 0 rs) = false /\ in_cutset (last rs 0) = false)).

Lemma last_snoc {A} (l : list A) x d : last (l ++ [x]) d = x.
Proof. apply last_last. Qed.

(** Parsing valid text rune by rune. *)
Lemma valid_text_prefix p r rs :
  bytes_ok p -> scalar r -> Forall scalar rs -> p ++ encode_rune r = utf8 rs ->
  exists ps, Forall scalar ps /\ p = utf8 ps /\ rs = ps ++ [r].
Proof.
  intros Hp Hr. remember (length p) as k eqn:K. revert p rs K Hp.
  induction k as [k IH] using lt_wf_ind. intros p rs K Hp F E.
  destruct rs as [|x rs].
  { apply app_eq_nil in E as [_ E]. pose proof (encode_rune_length r). rewrite E in *. simpl in *; lia. }
  inversion F as [|? ? Fx Frs]; subst. change (utf8 (x :: rs)) with (encode_rune x ++ utf8 rs) in E.
  pose proof (decode_encode x (utf8 rs) Fx) as Dx.
  destruct p as [|b t].
  - cbn [app] in E. pose proof (decode_encode r [] Hr) as Dr. rewrite app_nil_r in Dr.
    rewrite <- E in Dx. rewrite Dr in Dx. injection Dx as Ex _. subst x.
    assert (R : utf8 rs = []).
    { rewrite <- (app_nil_r (encode_rune r)) in E at 1. apply app_inv_head in E. auto. }
    destruct rs as [|y rs].
    + exists []. repeat split; auto.
    + cbn in R. apply app_eq_nil in R as [R _]. pose proof (encode_rune_length y).
      rewrite R in *. simpl in *; lia.
  - set (p := b :: t) in *.
    assert (D : decode_rune (p ++ encode_rune r) = decode_rune p).
    { apply decode_rune_app; [discriminate|].
      destruct (encode_rune_first r Hr) as (c & s & Ec & Sc & _). rewrite Ec. exact Sc. }
    rewrite E, Dx in D.
    destruct (decode_rune_cases p Hp) as (r' & n & E' & N & C); [discriminate|].
    rewrite E' in D. injection D as <- <-.
    destruct C as [[Q1 Q2]|(_ & _ & El)].
    { subst x. discriminate Q2. }
    rewrite El in E. rewrite <- app_assoc in E. apply app_inv_head in E.
    pose proof (encode_rune_length x).
    destruct (IH (length (skipn (length (encode_rune x)) p))
                ltac:(rewrite skipn_length; lia) _ rs eq_refl) as (ps & Fp & Ep & Er); auto.
    { apply bytes_ok_skipn; auto. }
    exists (x :: ps). repeat split; [constructor; auto| |subst rs; reflexivity].
    rewrite El, Ep. reflexivity.
Qed.

Lemma valid_text_head rs r rest :
  Forall scalar rs -> scalar r -> utf8 rs = encode_rune r ++ rest -> hd 0 rs = r.
Proof.
  intros F S E. destruct rs as [|x rs].
  { symmetry in E. apply app_eq_nil in E as [E _]. pose proof (encode_rune_length r).
    rewrite E in *. simpl in *; lia. }
  inversion F; subst. change (utf8 (x :: rs)) with (encode_rune x ++ utf8 rs) in E.
  pose proof (decode_encode x (utf8 rs) H1) as D. rewrite E, decode_encode in D by auto.
  injection D as D _. auto.
Qed.

Lemma make_valid_trim_clean l : bytes_ok l -> clean_text (make_valid (trim l)).
Proof.
  intros H. destruct (trim_spec l H) as (B & [E|(p & r & E & Bp & S & I & Hd)]).
  - rewrite E. exists []. repeat split; auto.
  - assert (LE : last [r] 0 = r) by reflexivity.
    rewrite E in B. rewrite E. unfold make_valid.
    destruct (valid_utf8 _ _) eqn:V.
    + destruct (valid_utf8_spec _ _ B (Nat.le_refl _) V) as (rs & F & Q).
      destruct (valid_text_prefix p r rs Bp S F Q) as (ps & Fp & Ep & Er).
      exists rs. split; auto. split; auto. right. subst rs. rewrite last_snoc. split; auto.
      destruct Hd as [->|(r0 & rest & Ep0 & S0 & I0)].
      * destruct ps as [|x ps]; [exact I|]. cbn in Ep. symmetry in Ep.
        apply app_eq_nil in Ep as [Ep _]. pose proof (encode_rune_length x). rewrite Ep in *.
        simpl in *; lia.
      * replace (hd 0 (ps ++ [r])) with r0; auto. symmetry.
        eapply (valid_text_head (ps ++ [r]) r0 (rest ++ encode_rune r)); auto.
        rewrite <- Q, Ep0, <- app_assoc. reflexivity.
    + destruct (to_valid_app (length (p ++ encode_rune r)) false p [r]) as (ps & Fp & Q & Q0 & Qh); auto.
      { cbn. rewrite app_nil_r, app_length. lia. }
      cbn in Q. rewrite app_nil_r in Q. rewrite Q.
      exists (ps ++ [r]). split; [apply Forall_app; auto|]. split; auto. right.
      rewrite last_snoc. split; auto.
      destruct Hd as [->|(r0 & rest & Ep0 & S0 & I0)].
      * rewrite (Q0 eq_refl). exact I.
      * destruct (Qh r0 rest S0 Ep0) as (ps' & ->). exact I0.
Qed.
