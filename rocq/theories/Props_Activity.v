(** Properties C44 to C48: the driver activity ring. *)

From Verif Require Import Base Enums DDScalar Chunks CardActivity P_Scalar Props_Scalar Field P_Records.

(** ** Specification: following the chain by hand *)

Definition be16 (b : bytes) (i : nat) : Z := 256 * nth i b 0 + nth (i + 1) b 0.

(** A complete record header lies at [pos]: the length of the previous record
    and its own. *)
Definition header_at (buf : bytes) (pos prev cur : Z) : Prop :=
  0 <= pos /\ pos + 4 <= Z.of_nat (length buf) /\
  prev = be16 buf (Z.to_nat pos) /\ cur = be16 buf (Z.to_nat pos + 2).

(** The bytes [r] stand in the ring from position [p] on, wrapping around. *)
Definition on_ring (buf : bytes) (p : nat) (r : bytes) : Prop :=
  forall i, (i < length r)%nat -> nth ((p + i) mod length buf) buf 0 = nth i r 0.

(** Where the previous record starts; -1 if there is none. *)
Definition older (n pos prev : Z) : Z :=
  if prev =? 0 then -1 else if pos <? prev then pos - prev + n else pos - prev.

(** Following the chain from [pos] backwards meets the records [rs] and arrives at [q]. *)
Inductive visits (buf : bytes) : Z -> list bytes -> Z -> Prop :=
| visits_nil pos : visits buf pos [] pos
| visits_cons pos prev cur r rs q :
    header_at buf pos prev cur -> 4 <= cur ->
    Z.of_nat (length r) = cur -> on_ring buf (Z.to_nat pos) r ->
    visits buf (older (Z.of_nat (length buf)) pos prev) rs q ->
    visits buf pos (r :: rs) q.

(** The chain ends at [pos]: no complete header, or one with length zero. *)
Definition chain_end (buf : bytes) (pos : Z) : Prop :=
  forall prev cur, header_at buf pos prev cur -> cur = 0.

(** A header with an impossible length. *)
Definition bad_length (buf : bytes) (pos : Z) : Prop :=
  exists prev cur, header_at buf pos prev cur /\ 1 <= cur <= 3.

Lemma be_sub2 l i : (i + 2 <= length l)%nat -> be (sub l i 2) = be16 l i.
Proof.
  intros L. unfold be16. change (sub l i 2) with (sub l i (1 + 1)). rewrite <- (sub_join l i 1 1 (i + 1)) by lia.
  rewrite !sub_1 by lia. cbn [app]. unfold be. cbn [be_acc]. lia.
Qed.

Lemma be16_range l i : bytes_ok l -> 0 <= be16 l i < 65536.
Proof.
  intros H. unfold be16.
  assert (N : forall j, 0 <= nth j l 0 < 256).
  { intros j. destruct (Nat.lt_ge_cases j (length l)) as [J|J].
    - apply (nth_byte_ok l j H J).
    - rewrite nth_overflow by auto. lia. }
  pose proof (N i). pose proof (N (i + 1)%nat). lia.
Qed.

Lemma cyc_length buf p n : length (cyc buf p n) = n.
Proof. unfold cyc. rewrite map_length, seq_length. reflexivity. Qed.

Lemma cyc_nth buf p n i : (i < n)%nat -> nth i (cyc buf p n) 0 = nth ((p + i) mod length buf) buf 0.
Proof.
  intros H. unfold cyc.
  rewrite (nth_indep _ 0 (nth ((p + 0) mod length buf) buf 0)) by (rewrite map_length, seq_length; auto).
  rewrite (map_nth (fun i => nth ((p + i) mod length buf) buf 0) (seq 0 n) 0%nat i).
  rewrite seq_nth by auto. reflexivity.
Qed.

Lemma cyc_on_ring buf p n : on_ring buf p (cyc buf p n).
Proof. intros i H. rewrite cyc_length in H. symmetry. now apply cyc_nth. Qed.

Lemma on_ring_cyc buf p r : on_ring buf p r -> r = cyc buf p (length r).
Proof.
  intros O. apply (nth_ext _ _ 0 0); [now rewrite cyc_length|].
  intros i H. rewrite cyc_nth by auto. symmetry. now apply O.
Qed.

Lemma walk_step left buf pos prev cur r :
  header_at buf pos prev cur -> 4 <= cur -> Z.of_nat (length r) = cur -> on_ring buf (Z.to_nat pos) r ->
  ring_walk (S left) buf pos =
  let* t := ring_walk left buf (older (Z.of_nat (length buf)) pos prev) in Ok (r :: t).
Proof.
  intros (P & L & EP & EC) C R O. cbn [ring_walk].
  destruct (Z.eqb_spec (Z.of_nat (length buf)) 0); [lia|].
  destruct (Z.ltb_spec pos 0); [lia|]. destruct (Z.ltb_spec (Z.of_nat (length buf)) (pos + 4)); [lia|].
  cbn [orb]. rewrite !be_sub2, <- EP, <- EC by lia.
  destruct (Z.eqb_spec cur 0); [lia|]. destruct (Z.ltb_spec cur 4); [lia|].
  rewrite <- R, Nat2Z.id, <- (on_ring_cyc buf _ r O). f_equal. f_equal. unfold older.
  destruct (Z.eqb_spec prev 0); [reflexivity|].
  destruct (Z.ltb_spec (pos - prev) 0), (Z.ltb_spec pos prev); try lia; reflexivity.
Qed.

Lemma walk_visits buf pos rs q : visits buf pos rs q ->
  forall left, ring_walk (length rs + left) buf pos = let* t := ring_walk left buf q in Ok (rs ++ t).
Proof.
  induction 1 as [pos|pos prev cur r rs q H C R O V IH]; intros left.
  - cbn. destruct (ring_walk left buf pos); reflexivity.
  - cbn [length Nat.add app]. rewrite (walk_step _ _ _ _ _ _ H C R O), IH.
    destruct (ring_walk left buf q); reflexivity.
Qed.

Lemma walk_end left buf pos : chain_end buf pos -> ring_walk (S left) buf pos = Ok [].
Proof.
  intros E. cbn [ring_walk]. destruct (Z.eqb_spec (Z.of_nat (length buf)) 0); [reflexivity|].
  destruct (Z.ltb_spec pos 0); [reflexivity|].
  destruct (Z.ltb_spec (Z.of_nat (length buf)) (pos + 4)); [reflexivity|]. cbn [orb].
  rewrite !be_sub2 by lia.
  rewrite (E (be16 buf (Z.to_nat pos)) (be16 buf (Z.to_nat pos + 2))); [reflexivity|].
  repeat split; auto.
Qed.

Lemma walk_bad left buf pos : bad_length buf pos -> ring_walk left buf pos = fail.
Proof.
  intros (prev & cur & (P & L & EP & EC) & C). destruct left as [|left]; [reflexivity|]. cbn [ring_walk].
  destruct (Z.eqb_spec (Z.of_nat (length buf)) 0); [lia|].
  destruct (Z.ltb_spec pos 0); [lia|]. destruct (Z.ltb_spec (Z.of_nat (length buf)) (pos + 4)); [lia|].
  cbn [orb]. rewrite !be_sub2, <- EC by lia.
  destruct (Z.eqb_spec cur 0); [lia|]. destruct (Z.ltb_spec cur 4); [reflexivity|lia].
Qed.

Lemma walk_cases buf : bytes_ok buf -> forall left pos,
  exists rs q, visits buf pos rs q /\
    ((length rs < left)%nat /\ chain_end buf q \/
     (length rs < left)%nat /\ bad_length buf q \/
     length rs = left).
Proof.
  intros H. induction left as [|left IH]; intros pos.
  { exists [], pos. split; [constructor|auto]. }
  destruct (Z.lt_ge_cases pos 0) as [N|N].
  { exists [], pos. split; [constructor|]. left. split; [simpl; lia|]. intros prev cur (P & _). lia. }
  destruct (Z.lt_ge_cases (Z.of_nat (length buf)) (pos + 4)) as [L|L].
  { exists [], pos. split; [constructor|]. left. split; [simpl; lia|]. intros prev cur (_ & P & _). lia. }
  set (prev := be16 buf (Z.to_nat pos)). set (cur := be16 buf (Z.to_nat pos + 2)).
  assert (HA : header_at buf pos prev cur) by (repeat split; auto).
  pose proof (be16_range buf (Z.to_nat pos + 2) H) as R. fold cur in R.
  destruct (Z.eq_dec cur 0) as [Z0|NZ].
  { exists [], pos. split; [constructor|]. left. split; [simpl; lia|].
    intros p c (_ & _ & _ & ->). exact Z0. }
  destruct (Z.lt_ge_cases cur 4) as [B|B].
  { exists [], pos. split; [constructor|]. right. left. split; [simpl; lia|].
    exists prev, cur. split; auto. lia. }
  destruct (IH (older (Z.of_nat (length buf)) pos prev)) as (rs & q & V & C).
  exists (cyc buf (Z.to_nat pos) (Z.to_nat cur) :: rs), q. split.
  - eapply visits_cons; eauto; [rewrite cyc_length; lia|apply cyc_on_ring].
  - cbn [length]. destruct C as [[C1 C2]|[[C1 C2]|C]]; [left|right;left|right;right]; try split; auto; lia.
Qed.

(** * C44: termination and bounds *)

(** For every buffer and start position reading the ring ends: either the chain
    ends after at most 365 records and the days are those records, oldest first;
    or it is an error, because a length of 1 to 3 was met or the chain went on for
    366 records. *)
Theorem C44_ring_terminates :
  forall buf start, bytes_ok buf ->
  (forall ds, parse_days buf start = Ok ds <->
     exists rs q, visits buf start rs q /\ (length rs <= 365)%nat /\ chain_end buf q /\
       ds = rev (map day_of rs)) /\
  ((exists e, parse_days buf start = Err e) <->
     exists rs q, visits buf start rs q /\
       (length rs = 366%nat \/ (length rs <= 365)%nat /\ bad_length buf q)) /\
  parse_days buf start <> Panic /\
  (forall ds, parse_days buf start = Ok ds -> (length ds <= 365)%nat).
Proof.
  intros buf start H.
  assert (OK : forall rs q, visits buf start rs q -> (length rs <= 365)%nat -> chain_end buf q ->
    parse_days buf start = Ok (rev (map day_of rs))).
  { intros rs q V L E. unfold parse_days.
    replace max_days with (length rs + S (365 - length rs))%nat by (unfold max_days; lia).
    rewrite (walk_visits _ _ _ _ V), walk_end by auto. cbn [bind]. rewrite app_nil_r. reflexivity. }
  assert (BAD : forall rs q, visits buf start rs q ->
    (length rs = 366%nat \/ (length rs <= 365)%nat /\ bad_length buf q) -> parse_days buf start = fail).
  { intros rs q V [L|[L B]]; unfold parse_days.
    - replace max_days with (length rs + 0)%nat by (unfold max_days; lia).
      rewrite (walk_visits _ _ _ _ V). reflexivity.
    - replace max_days with (length rs + (366 - length rs))%nat by (unfold max_days; lia).
      rewrite (walk_visits _ _ _ _ V), walk_bad by auto. reflexivity. }
  destruct (walk_cases buf H max_days start) as (rs & q & V & C). unfold max_days in C.
  assert (D : ((length rs <= 365)%nat /\ chain_end buf q) \/
              (length rs = 366%nat \/ (length rs <= 365)%nat /\ bad_length buf q)).
  { destruct C as [[C1 C2]|[[C1 C2]|C]]; [left|right; right|right; left]; try split; auto; lia. }
  assert (LEN : forall ds, parse_days buf start = Ok ds ->
    exists rs q, visits buf start rs q /\ (length rs <= 365)%nat /\ chain_end buf q /\ ds = rev (map day_of rs)).
  { intros ds E. destruct D as [[D1 D2]|D].
    - rewrite (OK rs q V D1 D2) in E. apply Ok_inj in E. eauto 6.
    - rewrite (BAD rs q V D) in E. discriminate. }
  split; [|split; [|split]].
  - intros ds. split; [apply LEN|]. intros (rs' & q' & V' & L' & E' & ->). eauto.
  - split.
    + intros [e E]. destruct D as [[D1 D2]|D]; [rewrite (OK rs q V D1 D2) in E; discriminate|eauto].
    + intros (rs' & q' & V' & B'). eexists. apply (BAD rs' q' V' B').
  - destruct D as [[D1 D2]|D]; [rewrite (OK rs q V D1 D2)|rewrite (BAD rs q V D)]; discriminate.
  - intros ds E. destruct (LEN ds E) as (rs' & q' & _ & L' & _ & ->). rewrite rev_length, map_length. exact L'.
Qed.
Print Assumptions C44_ring_terminates.

(** The same for whole files: accepted with at most 365 days, or an error. *)
Theorem C44_activity_bounded :
  forall d, bytes_ok d ->
  unmarshal_activity d <> Panic /\
  (forall a, unmarshal_activity d = Ok a ->
     (5 <= length d)%nat /\ (length (act_days a) <= 365)%nat /\
     act_oldest a = be16 d 0 /\ act_newest a = be16 d 2 /\
     parse_days (skipn 4 d) (be16 d 2) = Ok (act_days a)) /\
  (forall ds, (5 <= length d)%nat -> parse_days (skipn 4 d) (be16 d 2) = Ok ds ->
     exists a, unmarshal_activity d = Ok a /\ act_days a = ds).
Proof.
  intros d H. unfold unmarshal_activity.
  destruct (C44_ring_terminates (skipn 4 d) (be16 d 2) (bytes_ok_skipn 4 d H)) as (_ & _ & NP & B).
  destruct (Nat.ltb_spec (length d) 4) as [L|L]; cbn [negb guard bind].
  { repeat split; try discriminate. intros; lia. }
  rewrite !be_sub2, skipn_length by lia.
  destruct (Nat.eqb_spec (length d - 4) 0) as [E|E].
  { repeat split; try discriminate. intros; lia. }
  destruct (parse_days (skipn 4 d) (be16 d 2)) as [ds|e|] eqn:P; cbn [bind]; [|split; [discriminate|split; discriminate]|congruence].
  split; [discriminate|]. split.
  - intros a Ea. apply Ok_inj in Ea. subst a. cbn. repeat split; auto; lia.
  - intros ds' _ Ed. apply Ok_inj in Ed. subst. eauto.
Qed.
Print Assumptions C44_activity_bounded.

(** A record whose predecessor is itself: 366 visits, then the error. *)
Example C44_self_reference :
  parse_days [0; 4; 0; 4] 0 = fail /\ ring_walk 3 [0; 4; 0; 4] 0 = fail /\
  parse_days [0; 0; 0; 4] 0 = Ok [day_of [0; 0; 0; 4]] /\
  parse_days [0; 0; 0; 3] 0 = fail.
Proof. repeat split; vm_compute; reflexivity. Qed.

(** * C45: completeness and order *)

(** A ring written from position [p] on: each record starts where the previous one
    ends (modulo the size of the buffer) and holds its predecessor's length and
    its own.  No header crosses the end of the buffer. *)
Fixpoint ring_of (buf : bytes) (p : nat) (prev : Z) (rs : list bytes) : Prop :=
  match rs with
  | [] => True
  | r :: t =>
      (p + 4 <= length buf)%nat /\ (4 <= length r <= length buf)%nat /\ on_ring buf p r /\
      be16 r 0 = prev /\ be16 r 2 = Z.of_nat (length r) /\
      ring_of buf ((p + length r) mod length buf) (Z.of_nat (length r)) t
  end.

(** Where the last record starts. *)
Fixpoint newest_at (n p : nat) (rs : list bytes) : nat :=
  match rs with
  | [] => p
  | [r] => p
  | r :: t => newest_at n ((p + length r) mod n) t
  end.

Lemma visits_app buf p rs q rs' q' : visits buf p rs q -> visits buf q rs' q' -> visits buf p (rs ++ rs') q'.
Proof. induction 1; cbn; intros; auto. econstructor; eauto. Qed.

Lemma on_ring_be16 buf p r i : on_ring buf p r -> (p + i + 2 <= length buf)%nat -> (i + 2 <= length r)%nat ->
  be16 buf (p + i) = be16 r i.
Proof.
  intros O L R. unfold be16. pose proof (O i ltac:(lia)) as A. pose proof (O (i + 1)%nat ltac:(lia)) as B.
  rewrite Nat.mod_small in A, B by lia. rewrite <- A, <- B, Nat.add_assoc. reflexivity.
Qed.

Lemma ring_visits buf : forall rs p prev, rs <> [] -> ring_of buf p prev rs ->
  visits buf (Z.of_nat (newest_at (length buf) p rs)) (rev rs) (older (Z.of_nat (length buf)) (Z.of_nat p) prev).
Proof.
  induction rs as [|r t IH]; [congruence|]. intros p prev _ (HP & HL & O & EP & EC & T).
  assert (V : visits buf (Z.of_nat p) [r] (older (Z.of_nat (length buf)) (Z.of_nat p) prev)).
  { eapply (visits_cons buf (Z.of_nat p) prev (Z.of_nat (length r)) r []); auto; try lia.
    - repeat split; try lia; rewrite Nat2Z.id.
      + rewrite <- EP, <- (Nat.add_0_r p) at 1. symmetry. apply on_ring_be16; auto; lia.
      + rewrite <- EC. symmetry. apply on_ring_be16; auto; lia.
    - now rewrite Nat2Z.id.
    - constructor. }
  destruct t as [|r' t]; [exact V|].
  change (rev (r :: r' :: t)) with (rev (r' :: t) ++ [r]). change (newest_at (length buf) p (r :: r' :: t)) with
    (newest_at (length buf) ((p + length r) mod length buf) (r' :: t)).
  specialize (IH ((p + length r) mod length buf)%nat (Z.of_nat (length r)) ltac:(discriminate) T).
  assert (B : older (Z.of_nat (length buf)) (Z.of_nat ((p + length r) mod length buf)) (Z.of_nat (length r)) = Z.of_nat p).
  { unfold older. destruct (Z.eqb_spec (Z.of_nat (length r)) 0); [lia|].
    destruct (Nat.lt_ge_cases (p + length r) (length buf)) as [S|S].
    - rewrite Nat.mod_small by lia. destruct (Z.ltb_spec (Z.of_nat (p + length r)) (Z.of_nat (length r))); lia.
    - assert (M : ((p + length r) mod length buf = p + length r - length buf)%nat).
      { replace (p + length r)%nat with ((p + length r - length buf) + 1 * length buf)%nat at 1 by lia.
        rewrite Nat.mod_add by lia. apply Nat.mod_small. lia. }
      rewrite M. destruct (Z.ltb_spec (Z.of_nat (p + length r - length buf)) (Z.of_nat (length r))); lia. }
  rewrite B in IH. eapply visits_app; [exact IH|exact V].
Qed.

(** A ring of 1 to 365 days whose headers do not cross the end of the buffer is
    read completely, oldest day first.  (The first record's previous length is
    zero, or leads to a place where no record starts.)  Missing for the full
    claim: headers that do cross the end (see C45_ring_refuted). *)
Theorem C45_ring_partial :
  forall buf p prev rs, bytes_ok buf ->
  ring_of buf p prev rs -> rs <> [] -> (length rs <= 365)%nat ->
  chain_end buf (older (Z.of_nat (length buf)) (Z.of_nat p) prev) ->
  parse_days buf (Z.of_nat (newest_at (length buf) p rs)) = Ok (map day_of rs).
Proof.
  intros buf p prev rs H R N L E.
  destruct (C44_ring_terminates buf (Z.of_nat (newest_at (length buf) p rs)) H) as (A & _).
  apply A. exists (rev rs), (older (Z.of_nat (length buf)) (Z.of_nat p) prev).
  rewrite rev_length. repeat split; auto using ring_visits.
  rewrite map_rev, rev_involutive. reflexivity.
Qed.
Print Assumptions C45_ring_partial.

Lemma chain_end_first buf p : chain_end buf (older (Z.of_nat (length buf)) p 0).
Proof. intros prev cur (P & _). unfold older in P. cbn in P. lia. Qed.

(** One day of 14 bytes: previous length, own length, date, counter 1, distance, one change. *)
Definition sample_day (prev date change : Z) : bytes :=
  [0; prev; 0; 14; 0; 0; 0; date; 0; 1; 0; 25; 8; change].

(** A ring whose first record wraps around the end of a 30-byte buffer. *)
Definition sample_ring : bytes :=
  skipn 10 (sample_day 0 1 5) ++ sample_day 14 2 6 ++ zeros 2 ++ firstn 10 (sample_day 0 1 5).

Example C45_example :
  ring_of sample_ring 20 0 [sample_day 0 1 5; sample_day 14 2 6] /\
  newest_at (length sample_ring) 20 [sample_day 0 1 5; sample_day 14 2 6] = 4%nat /\
  parse_days sample_ring 4 = Ok [day_of (sample_day 0 1 5); day_of (sample_day 14 2 6)] /\
  day_valid (day_of (sample_day 0 1 5)) = true /\ day_valid (day_of (sample_day 14 2 6)) = true.
Proof.
  split.
  - cbn [ring_of]. split; [cbn; lia|]. split; [cbn; lia|]. split.
    { intros i Hi. cbn in Hi. do 14 (destruct i as [|i]; [reflexivity|]). lia. }
    split; [reflexivity|]. split; [reflexivity|].
    change ((20 + length (sample_day 0 1 5)) mod length sample_ring)%nat with 4%nat.
    split; [cbn; lia|]. split; [cbn; lia|]. split.
    { intros i Hi. cbn in Hi. do 14 (destruct i as [|i]; [reflexivity|]). lia. }
    repeat split.
  - repeat split; vm_compute; reflexivity.
Qed.

(** The same ring without the restriction on headers. *)
Fixpoint ring_any (buf : bytes) (p : nat) (prev : Z) (rs : list bytes) : Prop :=
  match rs with
  | [] => True
  | r :: t =>
      (p < length buf)%nat /\ (4 <= length r <= length buf)%nat /\ on_ring buf p r /\
      be16 r 0 = prev /\ be16 r 2 = Z.of_nat (length r) /\
      ring_any buf ((p + length r) mod length buf) (Z.of_nat (length r)) t
  end.

(** The full claim fails: if the header of a day crosses the end of the buffer,
    that day and all older ones are silently dropped. *)
Theorem C45_ring_refuted :
  exists buf p rs, bytes_ok buf /\ ring_any buf p 0 rs /\ length rs = 2%nat /\
    (forall r, In r rs -> day_valid (day_of r) = true) /\
    exists one, parse_days buf (Z.of_nat (newest_at (length buf) p rs)) = Ok [one].
Proof.
  exists (skipn 2 (sample_day 0 1 5) ++ sample_day 14 2 6 ++ zeros 2 ++ firstn 2 (sample_day 0 1 5)), 28%nat,
    [sample_day 0 1 5; sample_day 14 2 6].
  split; [repeat constructor; lia|]. split; [|split; [reflexivity|split]].
  - cbn [ring_any]. split; [cbn; lia|]. split; [cbn; lia|]. split.
    { intros i Hi. cbn in Hi. do 14 (destruct i as [|i]; [reflexivity|]). lia. }
    split; [reflexivity|]. split; [reflexivity|].
    match goal with |- context [Nat.modulo ?a ?b] => change (Nat.modulo a b) with 12%nat end.
    split; [cbn; lia|]. split; [cbn; lia|]. split.
    { intros i Hi. cbn in Hi. do 14 (destruct i as [|i]; [reflexivity|]). lia. }
    repeat split.
  - intros r [<-|[<-|[]]]; vm_compute; reflexivity.
  - eexists. vm_compute. reflexivity.
Qed.
Print Assumptions C45_ring_refuted.

(** How much is lost, exactly.  Where each record of a ring starts: *)
Fixpoint starts (n p : nat) (rs : list bytes) : list nat :=
  match rs with
  | [] => []
  | r :: t => p :: starts n ((p + length r) mod n) t
  end.

Definition crosses (buf : bytes) (p : nat) : Prop := (length buf < p + 4)%nat.

Lemma older_mod n p k : (p < n)%nat -> (4 <= k <= n)%nat ->
  older (Z.of_nat n) (Z.of_nat ((p + k) mod n)) (Z.of_nat k) = Z.of_nat p.
Proof.
  intros P K. unfold older. destruct (Z.eqb_spec (Z.of_nat k) 0); [lia|].
  destruct (Nat.lt_ge_cases (p + k) n) as [S|S].
  - rewrite Nat.mod_small by lia. destruct (Z.ltb_spec (Z.of_nat (p + k)) (Z.of_nat k)); lia.
  - assert (M : ((p + k) mod n = p + k - n)%nat).
    { replace (p + k)%nat with ((p + k - n) + 1 * n)%nat at 1 by lia. rewrite Nat.mod_add by lia. apply Nat.mod_small. lia. }
    rewrite M. destruct (Z.ltb_spec (Z.of_nat (p + k - n)) (Z.of_nat k)); lia.
Qed.

Lemma ring_any_of buf : forall rs p prev, ring_any buf p prev rs ->
  Forall (fun q => ~ crosses buf q) (starts (length buf) p rs) -> ring_of buf p prev rs.
Proof.
  induction rs as [|r t IH]; intros p prev R F; [exact I|]. destruct R as (P & L & O & EP & EC & T).
  cbn [starts] in F. apply Forall_cons_iff in F as [F1 F]. unfold crosses in F1. cbn [ring_of].
  split; [lia|]. split; [exact L|]. split; [exact O|]. split; [exact EP|]. split; [exact EC|]. now apply IH.
Qed.

(** The newest record and all before it up to, but not including, the last record
    whose header crosses the end. *)
Lemma ring_suffix buf : forall rs1 p prev r rs2, ring_any buf p prev (rs1 ++ r :: rs2) ->
  exists q prevq, (q < length buf)%nat /\ nth (length rs1) (starts (length buf) p (rs1 ++ r :: rs2)) 0%nat = q /\
    (4 <= length r <= length buf)%nat /\
    ring_any buf q prevq (r :: rs2) /\
    skipn (S (length rs1)) (starts (length buf) p (rs1 ++ r :: rs2)) = starts (length buf) ((q + length r) mod length buf) rs2 /\
    newest_at (length buf) p (rs1 ++ r :: rs2) = newest_at (length buf) q (r :: rs2).
Proof.
  induction rs1 as [|x rs1 IH]; intros p prev r rs2 R; cbn [List.app] in *.
  - exists p, prev. pose proof R as (P & L & _). split; [exact P|]. split; [reflexivity|]. split; [exact L|]. split; [exact R|].
    split; reflexivity.
  - destruct R as (_ & _ & _ & _ & _ & R). destruct (IH _ _ r rs2 R) as (q & pq & P & N & L & R' & SK & NA).
    exists q, pq. split; [exact P|]. split; [exact N|]. split; [exact L|]. split; [exact R'|]. split; [exact SK|].
    rewrite <- NA. destruct rs1; reflexivity.
Qed.

Lemma visits_firstn buf p rs q n : visits buf p rs q -> (n <= length rs)%nat -> exists q', visits buf p (firstn n rs) q'.
Proof.
  intros V. revert n. induction V as [p|p prev cur r rs q H C R O V IH]; intros n N.
  - exists p. destruct n; [constructor|cbn in N; lia].
  - destruct n as [|n]; [exists p; constructor|]. cbn [length] in N. destruct (IH n ltac:(lia)) as [q' V'].
    exists q'. cbn [firstn]. econstructor; eauto.
Qed.

Lemma visits_count buf p rs q : bytes_ok buf -> visits buf p rs q -> chain_end buf q ->
  ((length rs <= 365)%nat -> parse_days buf p = Ok (rev (map day_of rs))) /\
  ((365 < length rs)%nat -> exists e, parse_days buf p = Err e).
Proof.
  intros H V E. destruct (C44_ring_terminates buf p H) as (A & B & _). split.
  - intros L. apply A. exists rs, q. auto.
  - intros L. apply B. destruct (visits_firstn buf p rs q 366 V ltac:(lia)) as [q' V'].
    exists (firstn 366 rs), q'. split; [exact V'|]. left. rewrite firstn_length. lia.
Qed.

(** Of every ring of linked records exactly those are returned that are newer than
    the newest one whose header crosses the end; more than 365 are an error. *)
Theorem C45_crossing_partial :
  forall buf p prev rs1 r rs2, bytes_ok buf -> ring_any buf p prev (rs1 ++ r :: rs2) ->
  crosses buf (nth (length rs1) (starts (length buf) p (rs1 ++ r :: rs2)) 0%nat) ->
  Forall (fun q => ~ crosses buf q) (skipn (S (length rs1)) (starts (length buf) p (rs1 ++ r :: rs2))) ->
  let newest := Z.of_nat (newest_at (length buf) p (rs1 ++ r :: rs2)) in
  ((length rs2 <= 365)%nat -> parse_days buf newest = Ok (map day_of rs2)) /\
  ((365 < length rs2)%nat -> exists e, parse_days buf newest = Err e).
Proof.
  intros buf p prev rs1 r rs2 H R X F. cbv zeta.
  destruct (ring_suffix buf rs1 p prev r rs2 R) as (q & pq & P & N & L & R' & SK & NA).
  rewrite N in X. rewrite SK in F. rewrite NA. clear N SK NA R.
  assert (E : chain_end buf (Z.of_nat q)). { intros a b (_ & HB & _). unfold crosses in X. lia. }
  assert (V : visits buf (Z.of_nat (newest_at (length buf) q (r :: rs2))) (rev rs2) (Z.of_nat q)).
  { destruct rs2 as [|r2 rs2]; [constructor|]. destruct R' as (_ & _ & _ & _ & _ & R2).
    apply ring_any_of in R2; [|exact F]. pose proof (ring_visits buf (r2 :: rs2) _ _ ltac:(discriminate) R2) as V.
    rewrite older_mod in V by auto. exact V. }
  destruct (visits_count buf _ _ _ H V E) as [A B]. rewrite rev_length in A, B. split; [|exact B].
  intros LE. rewrite A by exact LE. now rewrite map_rev, rev_involutive.
Qed.
Print Assumptions C45_crossing_partial.

Example C45_crossing_example :
  let buf := skipn 2 (sample_day 0 1 5) ++ sample_day 14 2 6 ++ zeros 2 ++ firstn 2 (sample_day 0 1 5) in
  bytes_ok buf /\ ring_any buf 28 0 [sample_day 0 1 5; sample_day 14 2 6] /\
  starts (length buf) 28 [sample_day 0 1 5; sample_day 14 2 6] = [28%nat; 12%nat] /\ crosses buf 28 /\ ~ crosses buf 12.
Proof.
  cbv zeta. split; [repeat (apply Forall_cons; [unfold byte_ok; lia|]); apply Forall_nil|]. split; [|split; [reflexivity|unfold crosses; cbn; lia]].
  cbn [ring_any]. split; [cbn; lia|]. split; [cbn; lia|]. split.
  { intros i Hi. cbn in Hi. do 14 (destruct i as [|i]; [reflexivity|]). lia. }
  split; [reflexivity|]. split; [reflexivity|].
  match goal with |- context [Nat.modulo ?a ?b] => change (Nat.modulo a b) with 12%nat end.
  split; [cbn; lia|]. split; [cbn; lia|]. split.
  { intros i Hi. cbn in Hi. do 14 (destruct i as [|i]; [reflexivity|]). lia. }
  repeat split.
Qed.

(** * C46: activity changes *)

(** The 16-bit entries of a record after its fixed part. *)
Fixpoint entries (d : bytes) : list Z :=
  match d with
  | b0 :: b1 :: t => 256 * b0 + b1 :: entries t
  | _ => []
  end.

(** The bit pattern of a listed change. *)
Definition change_bits (c : activity_change) : Z :=
  activity_bits (ac_slot c - 2) (if ac_crew c then 1 else 0) (if ac_inserted c then 0 else 1)
    (ac_activity c - 2) (ac_minutes c).

Lemma pair_ind (P : bytes -> Prop) :
  P [] -> (forall b, P [b]) -> (forall a b t, P t -> P (a :: b :: t)) -> forall l, P l.
Proof.
  intros H0 H1 H2. fix IH 1. intros [|a [|b t]]; [exact H0|exact (H1 a)|exact (H2 a b t (IH t))].
Qed.

Lemma change_decode b0 b1 : byte_ok b0 -> byte_ok b1 ->
  exists c, unmarshal_activity_change [b0; b1] = Ok c /\ append_activity_change c = Ok [b0; b1] /\
    change_bits c = 256 * b0 + b1.
Proof.
  intros H0 H1. destruct C32_activity_change_round_trip as (R & D & _).
  destruct (R b0 b1 H0 H1) as (c & U & A). exists c. split; auto. split; auto. unfold byte_ok in *.
  set (v := 256 * b0 + b1).
  destruct (D (v / 32768) (v / 16384 mod 2) (v / 8192 mod 2) (v / 2048 mod 4) (v mod 2048)) as (raw & E); try lia.
  assert (W : activity_bits (v / 32768) (v / 16384 mod 2) (v / 8192 mod 2) (v / 2048 mod 4) (v mod 2048) = v)
    by (unfold activity_bits; lia).
  cbv zeta in E. rewrite W in E. replace (v / 256) with b0 in E by lia. replace (v mod 256) with b1 in E by lia.
  rewrite U in E. apply Ok_inj in E. subst c. unfold change_bits. cbn [ac_slot ac_crew ac_inserted ac_activity ac_minutes].
  fold v. transitivity (activity_bits (v / 32768) (v / 16384 mod 2) (v / 8192 mod 2) (v / 2048 mod 4) (v mod 2048)); [|exact W].
  f_equal; try lia.
  - destruct (Z.eqb_spec (v / 16384 mod 2) 1); lia.
  - destruct (Z.eqb_spec (v / 8192 mod 2) 0); lia.
Qed.

Definition kept (v : Z) : bool := negb ((v =? 0) || (v =? 65535)).

(** Entries that were read. *)
Definition from_entry (c : activity_change) : Prop :=
  exists b0 b1, byte_ok b0 /\ byte_ok b1 /\ kept (256 * b0 + b1) = true /\
    unmarshal_activity_change [b0; b1] = Ok c /\ append_activity_change c = Ok [b0; b1].

Lemma parse_changes_spec d : bytes_ok d ->
  exists cs, parse_changes d = Ok cs /\ map change_bits cs = filter kept (entries d) /\ Forall from_entry cs /\
    (2 * length cs <= length d)%nat.
Proof.
  induction d as [|b|b0 b1 t IH] using pair_ind; intros H.
  - exists []. repeat split; auto.
  - exists []. repeat split; auto. simpl. lia.
  - rewrite !bytes_ok_cons in H. destruct H as (H0 & H1 & H). destruct (IH H) as (cs & E & M & F & L).
    cbn [parse_changes entries filter]. change (be [b0; b1]) with (b0 * 256 + b1).
    replace (b0 * 256 + b1) with (256 * b0 + b1) by lia.
    unfold kept at 1. destruct ((256 * b0 + b1 =? 0) || (256 * b0 + b1 =? 65535)) eqn:K; cbn [negb].
    + exists cs. repeat split; auto. simpl. lia.
    + destruct (change_decode b0 b1 H0 H1) as (c & U & A & B). rewrite U, E. cbn [bind].
      exists (c :: cs). cbn [map]. rewrite B, M. repeat split; auto.
      * constructor; auto. exists b0, b1. unfold kept. rewrite K. auto.
      * simpl. lia.
Qed.

(** A record is readable exactly when it has its 12 fixed bytes and a decimal
    counter; the listed changes are its entries in order, except those equal to
    0x0000 or 0xFFFF.  Missing for the full claim: those two values (see
    C46_changes_refuted). *)
Theorem C46_changes_partial :
  forall d, bytes_ok d ->
  (is_ok (parse_day d) = true <-> (12 <= length d)%nat /\ all_decimal (sub d 8 2)) /\
  forall r, parse_day d = Ok r ->
    map change_bits (day_changes r) = filter (fun v => negb (v =? 0) && negb (v =? 65535)) (entries (skipn 12 d)) /\
    day_prev r = be16 d 0 /\ day_len r = be16 d 2 /\ day_distance r = be16 d 10 /\
    unmarshal_time (sub d 4 4) = Ok (day_date r) /\ day_valid r = true.
Proof.
  intros d H. unfold parse_day.
  destruct (parse_changes_spec (skipn 12 d) (bytes_ok_skipn 12 d H)) as (cs & E & M & _).
  destruct (Nat.ltb_spec (length d) 12) as [L|L]; cbn [negb guard bind].
  { split; [split; [discriminate|lia]|discriminate]. }
  use_field time_implements d 4%nat 4%nat; [|discriminate].
  use_field (bcd_implements 2 ltac:(lia)) d 8%nat 2%nat; cbn [f_acc f_if] in *.
  - rewrite E. cbn [bind is_ok]. split.
    + assert (all_decimal (sub d 8 2)).
      { unfold decimalb in A0. rewrite forallb_forall in A0. apply Forall_forall.
        intros x I. specialize (A0 x I). lia. }
      tauto.
    + intros r Er. apply Ok_inj in Er. subst r.
      cbn [day_changes day_prev day_len day_distance day_date day_valid].
      rewrite !be_sub2 by lia. repeat split; auto. rewrite M.
      apply filter_ext. intros v. unfold kept. now rewrite negb_orb.
  - split; [|discriminate]. split; [discriminate|]. intros [_ AD].
    assert (decimalb (sub d 8 2) = true); [|congruence].
    unfold decimalb. apply forallb_forall. unfold all_decimal in AD. rewrite Forall_forall in AD.
    intros x I. specialize (AD x I). lia.
Qed.
Print Assumptions C46_changes_partial.

Example C46_example :
  exists r, parse_day (sample_day 0 1 5) = Ok r /\ map change_bits (day_changes r) = [2053].
Proof. eexists. split; [vm_compute; reflexivity|reflexivity]. Qed.

(** The full claim fails: a day whose only change is "driver, rest from midnight"
    (0x0000) is returned without any change. *)
Theorem C46_changes_refuted :
  exists d r, bytes_ok d /\ parse_day d = Ok r /\ entries (skipn 12 d) = [0] /\ day_changes r = [].
Proof.
  exists [0; 0; 0; 14; 0; 0; 0; 1; 0; 1; 0; 25; 0; 0]. eexists.
  split; [repeat constructor; lia|]. split; [vm_compute; reflexivity|]. split; reflexivity.
Qed.
Print Assumptions C46_changes_refuted.

(** * C47: write-back *)

Theorem C47_activity_verbatim :
  forall d a, bytes_ok d -> unmarshal_activity d = Ok a -> append_activity (Some a) = Ok d.
Proof.
  intros d a H U. unfold unmarshal_activity in U.
  destruct (Nat.ltb_spec (length d) 4) as [L|L]; [discriminate|]. cbn [negb guard bind] in U.
  destruct (Nat.eqb_spec (length (skipn 4 d)) 0) as [E|E]; [discriminate|].
  destruct (parse_days (skipn 4 d) (be (sub d 2 2))); try discriminate. cbn [bind] in U.
  apply Ok_inj in U. subst a. unfold append_activity. cbn [act_raw act_oldest act_newest].
  destruct (Nat.ltb_spec 0 (length (skipn 4 d))); [|lia]. cbn [bind].
  rewrite !to_be_be by (auto using bytes_ok_sub; apply sub_length; lia).
  rewrite app_assoc, sub_join by lia. cbn [Nat.add]. unfold sub. cbn [skipn]. now rewrite firstn_skipn.
Qed.
Print Assumptions C47_activity_verbatim.

Example C47_example : exists a, unmarshal_activity ([0; 20; 0; 4] ++ sample_ring) = Ok a /\
  length (act_days a) = 2%nat /\ append_activity (Some a) = Ok ([0; 20; 0; 4] ++ sample_ring).
Proof. eexists. split; [vm_compute; reflexivity|split; reflexivity]. Qed.

Lemma activity_codec :
  codec unmarshal_activity (fun a => append_activity (Some a))
    (fun d => is_ok (unmarshal_activity d)) (fun d => Ok d).
Proof.
  intros d H. destruct (C44_activity_bounded d H) as [NP _].
  destruct (unmarshal_activity d) as [a|e|] eqn:E; [|reflexivity|congruence].
  rewrite (C47_activity_verbatim d a H E). repeat split; auto; try discriminate.
  all: apply Ok_inj in H0; subst; auto. rewrite E. reflexivity.
Qed.

(** * C48: rebuilding the ring *)

Lemma parse_changes_zeros k : parse_changes (zeros k) = Ok [].
Proof.
  assert (Q : parse_changes (zeros k) = Ok [] /\ parse_changes (zeros (S k)) = Ok []).
  { induction k as [|k [IH1 IH2]]; [split; reflexivity|]. split; auto. }
  apply Q.
Qed.

Lemma changes_rewrite cs k : Forall from_entry cs ->
  exists e, concat_res append_activity_change cs = Ok e /\ length e = (2 * length cs)%nat /\ bytes_ok e /\
    parse_changes (e ++ zeros k) = Ok cs.
Proof.
  induction 1 as [|c cs (b0 & b1 & H0 & H1 & K & U & A) F (e & E & L & B & P)].
  - exists []. split; [reflexivity|]. split; [reflexivity|]. split; [constructor|apply parse_changes_zeros].
  - exists (b0 :: b1 :: e). cbn [concat_res]. rewrite A, E. cbn [bind app length].
    split; [reflexivity|]. split; [lia|]. split; [rewrite !bytes_ok_cons; auto|].
    cbn [parse_changes]. change (be [b0; b1]) with (b0 * 256 + b1).
    replace (b0 * 256 + b1) with (256 * b0 + b1) by lia. unfold kept in K.
    destruct ((256 * b0 + b1 =? 0) || (256 * b0 + b1 =? 65535)); [discriminate|].
    rewrite U, P. reflexivity.
Qed.

(** A readable record written again: same fixed part, same changes, zero filling. *)
Lemma day_rewrite b r prev : bytes_ok b -> parse_day b = Ok r -> be16 b 2 = Z.of_nat (length b) ->
  Z.of_nat prev = day_prev r ->
  record_size r = Ok (length b) /\
  exists b', marshal_day r prev (length b) = Ok b' /\ length b' = length b /\ bytes_ok b' /\
    parse_day b' = Ok r /\ be16 b' 0 = be16 b 0 /\ be16 b' 2 = be16 b 2.
Proof.
  intros H U EC EP. unfold parse_day in U.
  destruct (Nat.ltb_spec (length b) 12) as [L|L]; [discriminate|]. cbn [negb guard bind] in U.
  pose proof (time_implements (sub b 4 4) (bytes_ok_sub _ _ _ H) ltac:(apply sub_length; simpl; lia)) as T.
  destruct (unmarshal_time (sub b 4 4)) as [t|e|] eqn:Et; try discriminate. cbn [bind] in U.
  pose proof (bcd_implements 2 ltac:(lia) (sub b 8 2) (bytes_ok_sub _ _ _ H) ltac:(apply sub_length; simpl; lia)) as C.
  destruct (unmarshal_bcd_string (sub b 8 2)) as [c|e|] eqn:Ec; try discriminate. cbn [bind] in U.
  destruct (parse_changes_spec (skipn 12 b) (bytes_ok_skipn 12 b H)) as (cs & Ep & _ & F & Lc).
  rewrite Ep in U. cbn [bind] in U. apply Ok_inj in U. subst r.
  rewrite skipn_length in Lc.
  destruct (changes_rewrite cs (length b - (12 + 2 * length cs)) F) as (e & Ee & Le & He & Pe).
  cbn [day_prev] in EP.
  split.
  { unfold record_size, day_size. cbn [day_valid day_len]. rewrite be_sub2, EC by lia.
    destruct (Z.ltb_spec 0 (Z.of_nat (length b))); [|lia]. now rewrite Nat2Z.id. }
  unfold marshal_day. cbn [day_date day_counter day_changes day_distance].
  destruct T as [_ T]. destruct C as [_ C]. cbn [f_w f_id f_if] in T, C. rewrite T, C, Ee. cbn [bind].
  rewrite EP, <- EC, <- (be_sub2 b 2) by lia.
  rewrite !to_be_be by (auto using bytes_ok_sub; apply sub_length; lia).
  set (x := sub b 0 2 ++ sub b 2 2 ++ sub b 4 4 ++ sub b 8 2 ++ sub b 10 2 ++ e).
  assert (X : x = firstn 12 b ++ e).
  { unfold x. rewrite (sub_join_assoc b 0 2 2 2), (sub_join_assoc b 0 4 4 4), (sub_join_assoc b 0 8 2 8),
      (sub_join_assoc b 0 10 2 10) by lia. reflexivity. }
  assert (LX : length x = (12 + 2 * length cs)%nat) by (rewrite X, app_length, firstn_length, Le; lia).
  rewrite LX, X, <- app_assoc. clear X LX. clearbody x.
  set (z := zeros (length b - (12 + 2 * length cs))) in *.
  assert (S : forall i n, (i + n <= 12)%nat -> sub (firstn 12 b ++ e ++ z) i n = sub b i n).
  { intros i n I. transitivity (sub (firstn 12 b) i n).
    - unfold sub. rewrite skipn_app, firstn_app, skipn_length, firstn_length.
      replace (n - (Nat.min 12 (length b) - i))%nat with 0%nat by lia. cbn [firstn]. now rewrite app_nil_r.
    - unfold sub. rewrite skipn_firstn_comm, firstn_firstn. f_equal. lia. }
  eexists. split; [reflexivity|].
  assert (LL : length (firstn 12 b ++ e ++ z) = length b).
  { unfold z. rewrite !app_length, firstn_length, zeros_length, Le. lia. }
  split; [exact LL|]. split.
  { apply bytes_ok_app. split; [apply bytes_ok_firstn; auto|]. apply bytes_ok_app. split; [exact He|apply bytes_ok_zeros]. }
  rewrite <- !be_sub2 by lia. rewrite !S by lia. repeat split; auto.
  unfold parse_day. rewrite LL. destruct (Nat.ltb_spec (length b) 12); [lia|]. cbn [negb guard bind].
  rewrite !S, Et, Ec by lia. cbn [bind].
  rewrite (P_Utf8.skipn_app_exact (firstn 12 b) (e ++ z) 12) by (rewrite firstn_length; lia).
  rewrite Pe. reflexivity.
Qed.

(** The days [rs] encode to [bs], the first with previous length [prev]. *)
Fixpoint enc_days (prev : nat) (rs : list day) (bs : list bytes) : Prop :=
  match rs, bs with
  | [], [] => True
  | r :: rs', b :: bs' =>
      day_valid r = true /\ record_size r = Ok (length b) /\ marshal_day r prev (length b) = Ok b /\
      enc_days (length b) rs' bs'
  | _, _ => False
  end.

Lemma enc_sizes : forall rs prev bs, enc_days prev rs bs -> map_res record_size rs = Ok (map (@length Z) bs).
Proof.
  induction rs as [|r rs IH]; intros prev [|b bs] E; cbn in E; try contradiction; [reflexivity|].
  destruct E as (_ & S & _ & E). cbn [map_res]. rewrite S, (IH _ _ E). reflexivity.
Qed.

Lemma write_days_eq : forall rs prev bs done, enc_days prev rs bs ->
  write_days (done ++ zeros (list_sum (map (@length Z) bs))) (length done) prev rs = Ok (done ++ concat bs).
Proof.
  induction rs as [|r rs IH]; intros prev [|b bs] done E; cbn in E; try contradiction; [reflexivity|].
  destruct E as (V & S & M & E).
  change (list_sum (map (@length Z) (b :: bs))) with (length b + list_sum (map (@length Z) bs))%nat.
  cbn [write_days]. rewrite S, V. cbn [bind]. rewrite M. cbn [bind concat].
  replace (copy_into (done ++ zeros (length b + list_sum (map (@length Z) bs))) (length done)
             (length (done ++ zeros (length b + list_sum (map (@length Z) bs)))) b)
    with ((done ++ b) ++ zeros (list_sum (map (@length Z) bs))).
  - rewrite <- (app_length done b), (IH _ _ (done ++ b) E), <- app_assoc. reflexivity.
  - unfold copy_into. rewrite app_length, zeros_length.
    replace (Nat.min (length done + (length b + list_sum (map (@length Z) bs)) - length done) (length b))
      with (length b) by lia.
    rewrite (P_Utf8.firstn_app_exact done) by reflexivity. rewrite firstn_all, <- app_assoc. f_equal. f_equal.
    rewrite skipn_app, skipn_all2 by lia. cbn [app].
    replace (length done + length b - length done)%nat with (length b) by lia.
    unfold zeros. rewrite repeat_app, P_Utf8.skipn_app_exact by (now rewrite repeat_length). reflexivity.
Qed.

Lemma build_ring_eq rs bs : enc_days 0 rs bs -> build_ring rs = Ok (concat bs).
Proof.
  intros E. unfold build_ring. rewrite (enc_sizes _ _ _ E). cbn [bind].
  apply (write_days_eq rs 0 bs [] E).
Qed.

(** Records laid out one after the other. *)
Fixpoint chained (prev : Z) (bs : list bytes) : Prop :=
  match bs with
  | [] => True
  | b :: t => (4 <= length b)%nat /\ be16 b 0 = prev /\ be16 b 2 = Z.of_nat (length b) /\
              chained (Z.of_nat (length b)) t
  end.

Lemma chained_ring : forall bs done prev, bs <> [] -> chained prev bs ->
  ring_of (done ++ concat bs) (length done) prev bs /\
  newest_at (length (done ++ concat bs)) (length done) bs =
    (length done + list_sum (map (@length Z) (removelast bs)))%nat.
Proof.
  induction bs as [|b t IH]; [congruence|]. intros done prev _ (L & EP & EC & C).
  cbn [concat].
  assert (O : on_ring (done ++ b ++ concat t) (length done) b).
  { intros i Hi. rewrite !app_length, Nat.mod_small by lia.
    rewrite app_nth2, Nat.add_comm, Nat.add_sub, app_nth1 by lia. reflexivity. }
  destruct t as [|b' t].
  - cbn [ring_of newest_at removelast map list_sum]. rewrite !app_length. repeat split; auto; lia.
  - destruct (IH (done ++ b) (Z.of_nat (length b)) ltac:(discriminate) C) as [R N].
    rewrite <- app_assoc in R, N. rewrite (app_length done b) in R, N.
    assert (P : ((length done + length b) mod length (done ++ b ++ concat (b' :: t)) = length done + length b)%nat).
    { apply Nat.mod_small. destruct C as (L' & _). cbn [concat]. rewrite !app_length. lia. }
    split.
    + change (ring_of (done ++ b ++ concat (b' :: t)) (length done) prev (b :: b' :: t)) with
        ((length done + 4 <= length (done ++ b ++ concat (b' :: t)))%nat /\
         (4 <= length b <= length (done ++ b ++ concat (b' :: t)))%nat /\
         on_ring (done ++ b ++ concat (b' :: t)) (length done) b /\
         be16 b 0 = prev /\ be16 b 2 = Z.of_nat (length b) /\
         ring_of (done ++ b ++ concat (b' :: t))
           ((length done + length b) mod length (done ++ b ++ concat (b' :: t))) (Z.of_nat (length b)) (b' :: t)).
      rewrite P. split; [rewrite !app_length; lia|]. split; [rewrite !app_length; lia|]. auto.
    + change (newest_at (length (done ++ b ++ concat (b' :: t))) (length done) (b :: b' :: t)) with
        (newest_at (length (done ++ b ++ concat (b' :: t)))
           ((length done + length b) mod length (done ++ b ++ concat (b' :: t))) (b' :: t)).
      rewrite P, N. change (removelast (b :: b' :: t)) with (b :: removelast (b' :: t)).
      change (list_sum (map (@length Z) (b :: removelast (b' :: t)))) with
        (length b + list_sum (map (@length Z) (removelast (b' :: t))))%nat. lia.
Qed.

Lemma visits_records buf pos rs q : bytes_ok buf -> visits buf pos rs q ->
  Forall (fun r => bytes_ok r /\ be16 r 2 = Z.of_nat (length r) /\ (4 <= length r)%nat) rs.
Proof.
  intros H. induction 1 as [|pos prev cur r rs q HA C R O V IH]; constructor; auto.
  destruct HA as (P & L & EP & EC). split.
  { rewrite (on_ring_cyc _ _ _ O). unfold cyc. apply Forall_forall. intros x I. apply in_map_iff in I as (i & <- & _).
    apply nth_byte_ok; auto. apply Nat.mod_upper_bound. lia. }
  pose proof (be16_range buf (Z.to_nat pos + 2) H).
  split; [|lia]. rewrite <- (on_ring_be16 buf (Z.to_nat pos) r 2 O) by lia. lia.
Qed.

(** The days are linked: each holds the length of the one before. *)
Fixpoint linked (prev : Z) (ds : list day) : Prop :=
  match ds with
  | [] => True
  | r :: t => day_prev r = prev /\ linked (day_len r) t
  end.

Definition drop_raw (a : activity) : activity := mkAct (act_oldest a) (act_newest a) [] (act_days a).

Lemma rebuild : forall rs prev, (Forall (fun r => bytes_ok r /\ be16 r 2 = Z.of_nat (length r) /\ (4 <= length r)%nat) rs) ->
  Forall (fun r => day_valid (day_of r) = true) rs -> linked (Z.of_nat prev) (map day_of rs) ->
  exists bs, enc_days prev (map day_of rs) bs /\ map day_of bs = map day_of rs /\
    chained (Z.of_nat prev) bs /\ map (fun b => Z.of_nat (length b)) bs = map (fun r => day_len (day_of r)) rs /\
    Forall bytes_ok bs.
Proof.
  induction rs as [|r rs IH]; intros prev F V K.
  { exists []. repeat split; auto. }
  inversion F as [|? ? (B & EC & L) F']; subst. inversion V as [|? ? Vr V']; subst.
  cbn [map linked] in K. destruct K as [KP K].
  assert (U : parse_day r = Ok (day_of r)).
  { unfold day_of in *. destruct (parse_day r); [reflexivity|discriminate|discriminate]. }
  destruct (day_rewrite r (day_of r) prev B U EC (eq_sym KP)) as (S & b' & M & L' & B' & U' & P0 & P2).
  destruct (C46_changes_partial r B) as [_ Q]. destruct (Q _ U) as (_ & QP & QL & _).
  rewrite QL, EC in K. destruct (IH (length r) F' V' K) as (bs & E & D & C & Ls & Bs).
  exists (b' :: bs). cbn [enc_days map chained]. rewrite L'.
  split; [auto|]. split. { f_equal; auto. unfold day_of at 1. rewrite U'. reflexivity. }
  split. { split; [exact L|]. split; [rewrite P0, <- QP; exact KP|]. split; [rewrite P2; exact EC|exact C]. }
  split. { f_equal; auto. rewrite QL. symmetry. exact EC. }
  constructor; auto.
Qed.

(** If every day could be read, the days are linked from a first one without
    predecessor, and the newest pointer is where the last day stands when the
    days are laid out from position zero, then dropping the raw ring and
    writing the days gives a file that reads back with the same days.  Missing for
    the full claim: those conditions (see C48_rebuilt_refuted). *)
Theorem C48_rebuilt_partial :
  forall d a, bytes_ok d -> unmarshal_activity d = Ok a ->
  act_days a <> [] -> Forall (fun r => day_valid r = true) (act_days a) -> linked 0 (act_days a) ->
  act_newest a = fold_right Z.add 0 (map day_len (removelast (act_days a))) ->
  exists d' a', append_activity (Some (drop_raw a)) = Ok d' /\ unmarshal_activity d' = Ok a' /\
    act_days a' = act_days a /\ act_newest a' = act_newest a /\ act_oldest a' = act_oldest a.
Proof.
  intros d a H U N V K P.
  destruct (C44_activity_bounded d H) as (_ & A & _). destruct (A a U) as (L & LD & EO & EN & PD).
  destruct (C44_ring_terminates (skipn 4 d) (be16 d 2) (bytes_ok_skipn 4 d H)) as (T & _).
  destruct (proj1 (T _) PD) as (rs0 & q & Vs & Lr & Ce & Ed).
  pose proof (visits_records _ _ _ _ (bytes_ok_skipn 4 d H) Vs) as F0.
  set (rs := rev rs0). assert (Ers : act_days a = map day_of rs) by (rewrite Ed, <- map_rev; reflexivity).
  assert (F : Forall (fun r => bytes_ok r /\ be16 r 2 = Z.of_nat (length r) /\ (4 <= length r)%nat) rs).
  { unfold rs. rewrite Forall_forall in *. intros x I. apply F0. now apply in_rev. }
  rewrite Ers in *. rewrite Forall_map in V.
  destruct (rebuild rs 0 F V K) as (bs & E & D & C & Ls & Bs).
  assert (NB : bs <> []).
  { intros ->. destruct rs; [apply N; reflexivity|discriminate Ls]. }
  destruct (chained_ring bs [] 0 NB C) as [R NA]. cbn [app length] in R, NA.
  assert (SUM : Z.of_nat (newest_at (length (concat bs)) 0 bs) = act_newest a).
  { rewrite NA, P. clear - Ls.
    assert (G : forall (l : list bytes) (m : list bytes), map (fun b => Z.of_nat (length b)) l = map (fun r => day_len (day_of r)) m ->
      Z.of_nat (0 + list_sum (map (@length Z) (removelast l))) = fold_right Z.add 0 (map day_len (removelast (map day_of m)))).
    { induction l as [|x l IH]; intros [|y m] Q; try discriminate; [reflexivity|].
      cbn [map] in Q. injection Q as Q1 Q2.
      destruct l as [|x' l], m as [|y' m]; try discriminate; [reflexivity|].
      specialize (IH (y' :: m) Q2).
      change (removelast (x :: x' :: l)) with (x :: removelast (x' :: l)).
      change (removelast (map day_of (y :: y' :: m))) with (day_of y :: removelast (map day_of (y' :: m))).
      change (list_sum (map (@length Z) (x :: removelast (x' :: l)))) with
        (length x + list_sum (map (@length Z) (removelast (x' :: l))))%nat.
      cbn [map fold_right] in *. lia. }
    apply G, Ls. }
  assert (LB : (length bs <= 365)%nat).
  { rewrite <- (map_length day_of bs), D. exact LD. }
  assert (HB : bytes_ok (concat bs)).
  { unfold bytes_ok. apply Forall_concat. exact Bs. }
  assert (LC : (4 <= length (concat bs))%nat).
  { destruct bs as [|b bs]; [congruence|]. destruct C as (LC & _). cbn. rewrite app_length. lia. }
  pose proof (C45_ring_partial (concat bs) 0 0 bs HB R NB LB (chain_end_first _ _)) as RP.
  rewrite SUM in RP.
  exists (to_be 2 (act_oldest a) ++ to_be 2 (act_newest a) ++ concat bs),
    (mkAct (act_oldest a) (act_newest a) (concat bs) (map day_of bs)).
  split.
  { unfold append_activity, drop_raw. cbn [act_raw act_days act_oldest act_newest length Nat.ltb Nat.leb].
    rewrite Ers. rewrite (build_ring_eq _ _ E). reflexivity. }
  split.
  { unfold unmarshal_activity. rewrite !app_length, !to_be_length.
    destruct (Nat.ltb_spec (2 + (2 + length (concat bs))) 4); [lia|]. cbn [negb guard bind].
    rewrite sub_app_l by apply to_be_length. rewrite sub_app_r by apply to_be_length.
    rewrite (P_Utf8.firstn_app_exact (to_be 2 (act_newest a))) by (now rewrite to_be_length).
    rewrite !be_to_be. change (256 ^ Z.of_nat 2) with 65536.
    assert (RO : 0 <= act_oldest a < 65536) by (rewrite EO; now apply be16_range).
    assert (RN : 0 <= act_newest a < 65536) by (rewrite EN; now apply be16_range).
    rewrite !Z.mod_small by auto.
    assert (S : skipn 4 (to_be 2 (act_oldest a) ++ to_be 2 (act_newest a) ++ concat bs) = concat bs).
    { rewrite app_assoc. apply P_Utf8.skipn_app_exact. rewrite app_length, !to_be_length. reflexivity. }
    rewrite S. destruct (Nat.eqb_spec (length (concat bs)) 0); [lia|]. rewrite RP. reflexivity. }
  cbn [act_days act_newest act_oldest]. auto.
Qed.
Print Assumptions C48_rebuilt_partial.

Example C48_example :
  let d := [0; 0; 0; 14] ++ sample_day 0 1 5 ++ sample_day 14 2 6 ++ zeros 3 in
  exists a, unmarshal_activity d = Ok a /\ length (act_days a) = 2%nat /\
    Forall (fun r => day_valid r = true) (act_days a) /\ linked 0 (act_days a) /\
    act_newest a = fold_right Z.add 0 (map day_len (removelast (act_days a))).
Proof.
  eexists. split; [vm_compute; reflexivity|]. split; [reflexivity|].
  split; [repeat constructor|]. split; [repeat split|reflexivity].
Qed.

(** The full claim fails: a single day that does not stand at position zero is
    lost, since the newest pointer keeps its old value. *)
Theorem C48_rebuilt_refuted :
  exists d a d' a', bytes_ok d /\ unmarshal_activity d = Ok a /\ length (act_days a) = 1%nat /\
    append_activity (Some (drop_raw a)) = Ok d' /\ unmarshal_activity d' = Ok a' /\ act_days a' = [].
Proof.
  exists ([0; 4; 0; 4] ++ zeros 4 ++ [0; 0; 0; 14; 0; 1; 0; 0; 0; 1; 0; 25; 8; 5]). do 3 eexists.
  split; [repeat constructor; lia|]. split; [vm_compute; reflexivity|]. split; [reflexivity|].
  split; [vm_compute; reflexivity|]. split; [vm_compute; reflexivity|]. reflexivity.
Qed.
Print Assumptions C48_rebuilt_refuted.
