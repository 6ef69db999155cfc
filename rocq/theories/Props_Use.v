(** C145: which days are read from a card that is in use. *)

From Verif Require Import Base Enums DDScalar Chunks CardActivity P_Scalar Props_Scalar Field P_Records Props_Activity Use.

(** What happened: the days in order, each with its fixed part and its changes. *)
Definition happened : Type := (bytes * list Z)%type.

Definition note (h : list happened) (u : usage) : list happened :=
  match u with
  | Day b => h ++ [(b, [])]
  | Change v => match rev h with
                | [] => []
                | (b, vs) :: t => rev t ++ [(b, vs ++ [v])]
                end
  end.

Definition history (us : list usage) : list happened := fold_left note us [].

(** Bytes that a day takes, and several days. *)
Definition size (d : happened) : nat := (12 + 2 * length (snd d))%nat.
Definition total (h : list happened) : nat := list_sum (map size h).

(** A fixed part has 8 bytes with a decimal counter; a change has 16 bits. *)
Definition usage_ok (u : usage) : Prop :=
  match u with
  | Day b => bytes_ok b /\ length b = 8%nat /\ all_decimal (sub b 4 2)
  | Change v => 0 <= v < 65536
  end.

(** The day [r] of a message shows what happened. *)
Definition shows (d : happened) (r : day) : Prop :=
  day_valid r = true /\ unmarshal_time (sub (fst d) 0 4) = Ok (day_date r) /\
  day_distance r = be16 (fst d) 6 /\
  map change_bits (day_changes r) = filter (fun v => negb (v =? 0) && negb (v =? 65535)) (snd d).

(** ** Writing to the ring *)

Lemma nth_skip {X} (l : list X) n i d : nth i (skipn n l) d = nth (n + i) l d.
Proof.
  revert l. induction n as [|n IH]; intros l; [reflexivity|]. destruct l as [|x l]; [destruct i; reflexivity|]. apply IH.
Qed.

Lemma set_ring_length buf p b : (0 < length buf)%nat -> length (set_ring buf p b) = length buf.
Proof.
  intros L. unfold set_ring. pose proof (Nat.mod_upper_bound p (length buf) ltac:(lia)).
  rewrite app_length, firstn_length. cbn [length]. rewrite skipn_length. lia.
Qed.

Lemma set_ring_same buf p b : (0 < length buf)%nat -> nth (p mod length buf) (set_ring buf p b) 0 = b.
Proof.
  intros L. unfold set_ring. pose proof (Nat.mod_upper_bound p (length buf) ltac:(lia)).
  rewrite app_nth2; rewrite firstn_length_le by lia; [|lia]. now rewrite Nat.sub_diag.
Qed.

Lemma set_ring_other buf p b i : (0 < length buf)%nat -> i <> (p mod length buf)%nat -> nth i (set_ring buf p b) 0 = nth i buf 0.
Proof.
  intros L N. unfold set_ring. set (j := (p mod length buf)%nat) in *.
  assert (J : (j < length buf)%nat) by (apply Nat.mod_upper_bound; lia).
  rewrite <- (firstn_skipn j buf) at 3.
  destruct (Nat.lt_ge_cases i j) as [K|K].
  - rewrite !app_nth1 by (rewrite firstn_length_le; lia). reflexivity.
  - rewrite !app_nth2 by (rewrite firstn_length_le; lia). rewrite firstn_length_le by lia.
    destruct (i - j)%nat as [|k] eqn:E; [lia|]. cbn [nth]. rewrite !nth_skip. f_equal. lia.
Qed.

Lemma set_ring_ok buf p b : bytes_ok buf -> byte_ok b -> bytes_ok (set_ring buf p b).
Proof.
  intros H B. unfold set_ring. rewrite bytes_ok_app, bytes_ok_cons. auto using bytes_ok_firstn, bytes_ok_skipn.
Qed.

Lemma put_length bs : forall buf p, (0 < length buf)%nat -> length (put buf p bs) = length buf.
Proof.
  induction bs as [|b t IH]; intros buf p L; [reflexivity|]. cbn [put]. rewrite IH; rewrite set_ring_length; auto.
Qed.

Lemma put_ok bs : forall buf p, bytes_ok buf -> bytes_ok bs -> bytes_ok (put buf p bs).
Proof.
  induction bs as [|b t IH]; intros buf p H B; [exact H|]. rewrite bytes_ok_cons in B. cbn [put]. apply IH; [|tauto].
  apply set_ring_ok; tauto.
Qed.

Lemma mod_distinct n p i j : (i < n)%nat -> (j < n)%nat -> ((p + i) mod n = (p + j) mod n)%nat -> i = j.
Proof.
  intros I J E. pose proof (Nat.div_mod (p + i) n ltac:(lia)) as A. pose proof (Nat.div_mod (p + j) n ltac:(lia)) as B.
  rewrite E in A. set (a := ((p + i) / n)%nat) in *. set (b := ((p + j) / n)%nat) in *.
  set (r := ((p + j) mod n)%nat) in *. clearbody a b r. clear E.
  destruct (Nat.lt_trichotomy a b) as [C|[C|C]].
  - assert (n * b >= n * a + n)%nat by nia. lia.
  - subst b. lia.
  - assert (n * a >= n * b + n)%nat by nia. lia.
Qed.

(** Places at a distance below the size of the ring are different. *)
Lemma put_other bs : forall buf p k, (k + length bs <= length buf)%nat -> forall i, (i < k)%nat ->
  nth ((p + i) mod length buf) (put buf (p + k) bs) 0 = nth ((p + i) mod length buf) buf 0.
Proof.
  induction bs as [|b t IH]; intros buf p k L i I; [reflexivity|]. cbn [length] in L. cbn [put].
  assert (N : (0 < length buf)%nat) by lia. pose proof (set_ring_length buf (p + k) b N) as SL.
  pose proof (IH (set_ring buf (p + k) b) p (k + 1)%nat ltac:(lia) i ltac:(lia)) as Q.
  rewrite SL, Nat.add_assoc in Q. rewrite Q. apply set_ring_other; [exact N|]. intros E. apply mod_distinct in E; lia.
Qed.

Lemma put_written bs : forall buf p, (length bs <= length buf)%nat -> on_ring (put buf p bs) p bs.
Proof.
  induction bs as [|b t IH]; intros buf p L i I; [cbn in I; lia|]. cbn [length] in *. cbn [put].
  assert (N : (0 < length buf)%nat) by lia. pose proof (set_ring_length buf p b N) as SL.
  rewrite put_length, SL by lia. destruct i as [|i].
  - pose proof (put_other t (set_ring buf p b) p 1 ltac:(lia) 0%nat ltac:(lia)) as Q. rewrite SL in Q.
    rewrite Q, Nat.add_0_r. apply set_ring_same, N.
  - pose proof (IH (set_ring buf p b) (p + 1)%nat ltac:(lia) i ltac:(lia)) as Q. rewrite put_length, SL in Q by lia.
    rewrite <- Nat.add_assoc in Q. exact Q.
Qed.

Lemma on_ring_app buf p a b : on_ring buf p (a ++ b) <-> on_ring buf p a /\ on_ring buf (p + length a) b.
Proof.
  unfold on_ring. split.
  - intros H. split; intros i I.
    + rewrite H, app_nth1; rewrite ?app_length; auto; lia.
    + replace (p + length a + i)%nat with (p + (length a + i))%nat by lia. rewrite H by (rewrite app_length; lia).
      rewrite app_nth2 by lia. f_equal. lia.
  - intros [A B] i I. rewrite app_length in I. destruct (Nat.lt_ge_cases i (length a)) as [L|L].
    + rewrite app_nth1 by auto. auto.
    + rewrite app_nth2 by auto. rewrite <- B by lia. f_equal. f_equal. lia.
Qed.

Lemma on_ring_mod buf p r : (0 < length buf)%nat -> on_ring buf (p mod length buf) r <-> on_ring buf p r.
Proof.
  intros L. unfold on_ring. split; intros H i I; specialize (H i I); rewrite <- H; f_equal;
    rewrite Nat.add_mod_idemp_l by lia; reflexivity.
Qed.

Lemma put_mod bs buf p : (0 < length buf)%nat -> put buf (p mod length buf) bs = put buf p bs.
Proof.
  revert buf p. induction bs as [|b t IH]; intros buf p L; [reflexivity|]. cbn [put].
  assert (E : set_ring buf (p mod length buf) b = set_ring buf p b) by (unfold set_ring; now rewrite Nat.mod_mod by lia).
  rewrite E. pose proof (set_ring_length buf p b L) as SL.
  rewrite <- (IH _ (p mod length buf + 1)%nat), <- (IH _ (p + 1)%nat) by lia. rewrite SL.
  rewrite Nat.add_mod_idemp_l by lia. reflexivity.
Qed.

(** Replacing a part [m] of what stands on the ring, or what comes behind it. *)
Lemma put_middle buf p a bs c : (length a + length bs + length c <= length buf)%nat ->
  on_ring buf p a -> on_ring buf (p + length a + length bs) c -> on_ring (put buf (p + length a) bs) p (a ++ bs ++ c).
Proof.
  intros L A C. destruct (Nat.eq_dec (length buf) 0) as [Z0|NZ].
  { destruct a, bs, c; cbn in L; try lia. intros i I. cbn in I. lia. }
  apply on_ring_app. split; [|apply on_ring_app; split].
  - intros i I. rewrite put_length by lia. rewrite put_other by lia. auto.
  - apply put_written. lia.
  - intros i I. rewrite put_length by lia.
    (* behind the written part: seen from there the written part begins [length buf - length bs] later *)
    set (q := (p + length a + length bs)%nat).
    pose proof (put_other bs buf q (length buf - length bs) ltac:(lia) i ltac:(lia)) as Q.
    assert (E : put buf (q + (length buf - length bs)) bs = put buf (p + length a) bs).
    { rewrite <- put_mod by lia. rewrite <- (put_mod bs buf (p + length a)) by lia. f_equal.
      replace (q + (length buf - length bs))%nat with (p + length a + 1 * length buf)%nat by (unfold q; lia).
      apply Nat.mod_add. lia. }
    rewrite E in Q. rewrite Q. apply C, I.
Qed.

Lemma put_cong buf p q bs : (0 < length buf)%nat -> (p mod length buf = q mod length buf)%nat -> put buf p bs = put buf q bs.
Proof. intros L E. rewrite <- (put_mod bs buf p), <- (put_mod bs buf q), E by auto. reflexivity. Qed.

Lemma on_ring_cong buf p q r : (0 < length buf)%nat -> (p mod length buf = q mod length buf)%nat -> on_ring buf p r -> on_ring buf q r.
Proof. intros L E H. apply on_ring_mod; auto. rewrite <- E. now apply on_ring_mod. Qed.

(** ** The records of days *)

Definition record (prev : nat) (d : happened) : bytes :=
  to_be 2 (Z.of_nat prev) ++ to_be 2 (Z.of_nat (size d)) ++ fst d ++ concat (map (to_be 2) (snd d)).

Fixpoint records (prev : nat) (ds : list happened) : list bytes :=
  match ds with
  | [] => []
  | d :: t => record prev d :: records (size d) t
  end.

Definition image (prev : nat) (ds : list happened) : bytes := concat (records prev ds).

Definition happened_ok (d : happened) : Prop :=
  bytes_ok (fst d) /\ length (fst d) = 8%nat /\ all_decimal (sub (fst d) 4 2) /\ Forall (fun v => 0 <= v < 65536) (snd d).

Lemma changes_length vs : length (concat (map (to_be 2) vs)) = (2 * length vs)%nat.
Proof. induction vs as [|v vs IH]; [reflexivity|]. cbn [map concat length]. rewrite app_length, to_be_length, IH. lia. Qed.

Lemma record_length prev d : happened_ok d -> length (record prev d) = size d.
Proof.
  intros (_ & L & _). unfold record, size. rewrite !app_length, !to_be_length, L, changes_length. lia.
Qed.

Lemma total_app a b : total (a ++ b) = (total a + total b)%nat.
Proof. unfold total. rewrite map_app, list_sum_app. reflexivity. Qed.

Lemma total_cons d t : total (d :: t) = (size d + total t)%nat.
Proof. reflexivity. Qed.

Lemma total_one d : total [d] = size d.
Proof. unfold total. cbn. lia. Qed.

Lemma image_length ds : forall prev, Forall happened_ok ds -> length (image prev ds) = total ds.
Proof.
  induction ds as [|d t IH]; intros prev H; [reflexivity|]. inversion H; subst. unfold image in *. cbn [records concat].
  rewrite app_length, record_length, IH by auto. reflexivity.
Qed.

Fixpoint last_size (prev : nat) (ds : list happened) : nat :=
  match ds with
  | [] => prev
  | d :: t => last_size (size d) t
  end.

Lemma last_size_snoc prev ds d : last_size prev (ds ++ [d]) = size d.
Proof. revert prev. induction ds as [|x t IH]; intros prev; [reflexivity|]. apply IH. Qed.

Lemma image_snoc ds d : forall prev, image prev (ds ++ [d]) = image prev ds ++ record (last_size prev ds) d.
Proof.
  unfold image. induction ds as [|x t IH]; intros prev; cbn [List.app records concat last_size]; [now rewrite app_nil_r|].
  now rewrite IH, app_assoc.
Qed.

Lemma be16_to_be v : 0 <= v < 65536 -> 256 * nth 0 (to_be 2 v) 0 + nth 1 (to_be 2 v) 0 = v.
Proof.
  intros H. pose proof (be_to_be 2 v) as E. rewrite Z.mod_small in E by (change (256 ^ Z.of_nat 2) with 65536; lia).
  pose proof (to_be_length 2 v) as L. destruct (to_be 2 v) as [|a [|b [|? ?]]]; try discriminate L. unfold be in E. cbn [be_acc] in E. cbn [nth]. lia.
Qed.

Lemma size_at_mod buf p : (0 < length buf)%nat -> size_at buf (p mod length buf) = size_at buf p.
Proof. intros L. unfold size_at, get_ring. rewrite !Nat.add_mod_idemp_l by lia. reflexivity. Qed.

Lemma size_at_record buf p prev d : happened_ok d -> Z.of_nat (size d) < 65536 -> on_ring buf p (record prev d) -> size_at buf p = size d.
Proof.
  intros K S O. unfold size_at, get_ring. pose proof (record_length prev d K) as RL.
  assert (12 <= size d)%nat by (unfold size; lia).
  rewrite (O 2%nat), (O 3%nat) by lia. unfold record.
  rewrite !(app_nth2 (to_be 2 (Z.of_nat prev))) by (rewrite to_be_length; lia). rewrite to_be_length.
  rewrite !app_nth1 by (rewrite to_be_length; lia). cbn [Nat.sub]. rewrite be16_to_be by lia. lia.
Qed.

(** ** The invariant *)

(** What happened is [pre ++ init ++ [d]]; the days of [pre] are no longer on the card. *)
Record inv (n : nat) (pre init : list happened) (d : happened) (s : store) : Prop := mkInv {
  i_length : length (s_buf s) = n;
  i_bytes : bytes_ok (s_buf s);
  i_oldest : s_oldest s = (total pre mod n)%nat;
  i_newest : s_newest s = (total (pre ++ init) mod n)%nat;
  i_fits : (total (init ++ [d]) <= n)%nat;
  i_there : on_ring (s_buf s) (total pre) (image 0 (init ++ [d])) }.

(** The days of [pre] are gone because there was no room for the last of them. *)
Definition full (n : nat) (pre : list happened) (t : nat) : Prop :=
  pre = [] \/ exists p x, pre = p ++ [x] /\ (n < size x + t)%nat.

Lemma size_pos d : (12 <= size d)%nat.
Proof. unfold size. lia. Qed.

Section Fixed.
Variable n : nat.
Hypothesis N : (24 <= n)%nat /\ Z.of_nat n < 65536.

Definition small (d : happened) : Prop := happened_ok d /\ (size d + 12 <= n)%nat.

Lemma small_ok h : Forall small h -> Forall happened_ok h.
Proof. intros H. eapply Forall_impl; [|exact H]. intros d [K _]. exact K. Qed.

Lemma there_last pre init d s : Forall small (init ++ [d]) -> inv n pre init d s ->
  on_ring (s_buf s) (total pre + total init) (record (last_size 0 init) d) /\ size_at (s_buf s) (s_newest s) = size d.
Proof.
  intros SM [L _ _ NW _ T]. rewrite image_snoc in T. apply on_ring_app in T as [_ T].
  apply Forall_app in SM as [S1 S2]. inversion S2 as [|? ? [K SD] _]; subst.
  rewrite image_length in T by now apply small_ok. split; [exact T|].
  rewrite NW, total_app, <- L, size_at_mod by lia. eapply size_at_record; eauto. lia.
Qed.

Lemma mod_back P t : (t < n)%nat -> (((P + t) mod n + n - P mod n) mod n = t)%nat.
Proof.
  intros T. pose proof (Nat.mod_upper_bound P n ltac:(lia)) as U. rewrite <- (Nat.add_mod_idemp_l P t n) by lia.
  set (o := (P mod n)%nat) in *. clearbody o. destruct (Nat.lt_ge_cases (o + t) n) as [C|C].
  - rewrite (Nat.mod_small (o + t)) by lia. replace (o + t + n - o)%nat with (t + 1 * n)%nat by lia.
    rewrite Nat.mod_add, Nat.mod_small by lia. reflexivity.
  - replace (o + t)%nat with ((o + t - n) + 1 * n)%nat at 1 by lia. rewrite Nat.mod_add by lia.
    rewrite (Nat.mod_small (o + t - n)) by lia. replace (o + t - n + n - o)%nat with t by lia. apply Nat.mod_small. lia.
Qed.

Lemma used_total pre init d s : Forall small (init ++ [d]) -> inv n pre init d s -> used s = total (init ++ [d]).
Proof.
  intros SM I. destruct (there_last _ _ _ _ SM I) as [_ SZ]. destruct I as [L _ O NW F _]. unfold used, room.
  rewrite SZ, L, O, NW, total_app. rewrite total_app, total_one in *. pose proof (size_pos d). rewrite mod_back by lia. reflexivity.
Qed.

Lemma drop_inv pre x init d s : Forall small (x :: init ++ [d]) -> inv n pre (x :: init) d s ->
  inv n (pre ++ [x]) init d (drop_oldest s).
Proof.
  intros SM [L B O NW F T]. cbn [List.app] in F, T. unfold drop_oldest, room. rewrite L.
  inversion SM as [|? ? [K SX] SM']; subst. pose proof (small_ok _ SM') as OK.
  unfold image in T. cbn [records concat] in T. apply on_ring_app in T as [T1 T2]. rewrite record_length in T2 by auto.
  assert (E : size_at (s_buf s) (s_oldest s) = size x).
  { rewrite O, <- L, size_at_mod by lia. eapply size_at_record; eauto. lia. }
  rewrite E, O. rewrite Nat.add_mod_idemp_l by lia.
  assert (TT : total (pre ++ [x]) = (total pre + size x)%nat) by now rewrite total_app, total_one.
  rewrite <- TT in *.
  assert (LT : (total (init ++ [d]) <= length (s_buf s))%nat) by (rewrite total_cons in F; lia).
  split; cbn [s_buf s_oldest s_newest].
  - rewrite put_length by lia. exact L.
  - apply put_ok; auto. repeat constructor; lia.
  - reflexivity.
  - rewrite NW. f_equal. rewrite !total_app, total_cons, total_one. lia.
  - lia.
  - rewrite <- L, put_mod by lia.
    assert (Y : exists y t, init ++ [d] = y :: t) by (destruct init; eexists _, _; reflexivity). destruct Y as (y & t & Y).
    pose proof (image_length _ (size x) OK) as IL. rewrite Y in *. unfold image in *. cbn [records concat] in *.
    unfold record in T2 at 1. unfold record at 1. rewrite <- !app_assoc in *.
    apply on_ring_app in T2 as [_ T2]. rewrite to_be_length in T2.
    pose proof (put_middle (s_buf s) (total (pre ++ [x])) [] [0; 0]
      (to_be 2 (Z.of_nat (size y)) ++ fst y ++ concat (map (to_be 2) (snd y)) ++ concat (records (size y) t))) as M.
    cbn [length] in M. rewrite Nat.add_0_r in M. apply M; auto.
    + unfold record in IL. rewrite !app_length, !to_be_length in *. lia.
    + intros i I. cbn in I. lia.
Qed.

Lemma room_inv need d : (size d + need <= n)%nat -> forall fuel pre init s, (length init <= fuel)%nat ->
  Forall small (init ++ [d]) -> inv n pre init d s -> full n pre (total (init ++ [d]) + need) ->
  exists gone rest, init = gone ++ rest /\ inv n (pre ++ gone) rest d (make_room fuel need s) /\
    (total (rest ++ [d]) + need <= n)%nat /\ full n (pre ++ gone) (total (rest ++ [d]) + need).
Proof.
  intros ND. induction fuel as [|fuel IH]; intros pre init s FU SM I U.
  - destruct init; [|cbn in FU; lia]. exists [], []. rewrite (app_nil_r pre). cbn [List.app make_room] in *. rewrite total_one in *.
    split; [reflexivity|]. split; [exact I|]. split; [lia|exact U].
  - cbn [make_room]. rewrite (used_total pre init d s SM I). unfold room. rewrite (i_length _ _ _ _ _ I).
    destruct (Nat.leb_spec (total (init ++ [d]) + need) n) as [C|C].
    { exists [], init. rewrite (app_nil_r pre). auto. }
    destruct init as [|x init]; [cbn [List.app] in C; rewrite total_one in C; lia|].
    cbn [List.app length] in *. pose proof (drop_inv pre x init d s SM I) as I'.
    inversion SM as [|? ? _ SM']; subst. rewrite total_cons in C.
    destruct (IH (pre ++ [x]) init (drop_oldest s) ltac:(lia) SM' I') as (gone & rest & E & I2 & T & U2).
    { right. exists pre, x. split; [reflexivity|]. lia. }
    exists (x :: gone), rest. rewrite <- app_assoc in I2, U2. cbn [List.app] in *. subst init. auto.
Qed.

Lemma total_count h : (length h <= total h)%nat.
Proof. induction h as [|d t IH]; [reflexivity|]. rewrite total_cons. pose proof (size_pos d). cbn [length]. lia. Qed.

Lemma room_enough need d pre init s : (size d + need <= n)%nat ->
  Forall small (init ++ [d]) -> inv n pre init d s -> full n pre (total (init ++ [d])) ->
  exists gone rest, init = gone ++ rest /\ inv n (pre ++ gone) rest d (make_room (room s) need s) /\
    (total (rest ++ [d]) + need <= n)%nat /\ full n (pre ++ gone) (total (rest ++ [d]) + need).
Proof.
  intros ND SM I U. apply (room_inv need d ND (room s) pre init s); auto.
  - unfold room. rewrite (i_length _ _ _ _ _ I). pose proof (total_count init). pose proof (i_fits _ _ _ _ _ I) as F.
    rewrite total_app in F. lia.
  - destruct U as [U|(p & x & E & U)]; [now left|right]. exists p, x. split; auto. lia.
Qed.

Lemma start_inv pre init d s b : Forall small (init ++ [d]) -> small (b, []) -> inv n pre init d s -> full n pre (total (init ++ [d])) ->
  exists gone rest, init = gone ++ rest /\ inv n (pre ++ gone) (rest ++ [d]) (b, []) (start_day s b) /\
    full n (pre ++ gone) (total ((rest ++ [d]) ++ [(b, [])])).
Proof.
  intros SM SB I U. assert (SD : small d) by (apply Forall_app in SM as [_ SM]; now inversion SM).
  destruct (room_enough 12 d pre init s (proj2 SD) SM I U) as (gone & rest & E & I2 & T & U2).
  exists gone, rest. split; [exact E|].
  assert (SB' : size (b, []) = 12%nat) by reflexivity.
  split; [|rewrite (total_app _ [_]), total_one, SB'; exact U2].
  unfold start_day. set (s2 := make_room (room s) 12 s) in *. clearbody s2. subst init.
  assert (SM2 : Forall small (rest ++ [d])) by (rewrite <- app_assoc in SM; apply Forall_app in SM; tauto).
  destruct (there_last _ _ _ _ SM2 I2) as [_ SZ]. pose proof (used_total _ _ _ _ SM2 I2) as UT.
  destruct I2 as [L B O NW F TH]. rewrite SZ. set (P := total (pre ++ gone)) in *.
  assert (PM : ((s_newest s2 + size d) mod n = (P + total (rest ++ [d])) mod n)%nat).
  { rewrite NW, Nat.add_mod_idemp_l by lia. f_equal. rewrite !total_app, total_one. unfold P. rewrite total_app. lia. }
  pose proof (image_length _ 0 (small_ok _ SM2)) as IL.
  split; cbn [s_buf s_oldest s_newest].
  - rewrite put_length by lia. exact L.
  - apply put_ok; auto. rewrite !bytes_ok_app. split; [apply to_be_ok|]. split; [apply to_be_ok|]. apply (proj1 SB).
  - exact O.
  - unfold room. rewrite L, PM. f_equal. unfold P. rewrite (total_app (pre ++ gone) (rest ++ [d])). reflexivity.
  - rewrite (total_app _ [_]), total_one, SB'. exact T.
  - rewrite (put_cong _ _ (P + total (rest ++ [d]))) by (rewrite ?L; lia).
    rewrite image_snoc, last_size_snoc. unfold record. rewrite SB'. cbn [fst snd map concat].
    rewrite <- IL.
    replace (to_be 2 (Z.of_nat (size d)) ++ to_be 2 (Z.of_nat 12) ++ b ++ []) with
      ((to_be 2 (Z.of_nat (size d)) ++ to_be 2 12 ++ b) ++ []) by now rewrite !app_nil_r.
    apply put_middle; [|exact TH|intros i J; cbn in J; lia].
    rewrite !app_length, !to_be_length. destruct SB as [(_ & LB & _) _]. cbn [fst length] in *. lia.
Qed.

Lemma change_inv pre init (d d' : happened) s v : d' = (fst d, snd d ++ [v]) -> Forall small (init ++ [d]) -> 0 <= v < 65536 -> small d' ->
  inv n pre init d s -> full n pre (total (init ++ [d])) ->
  exists gone rest, init = gone ++ rest /\ inv n (pre ++ gone) rest d' (add_change s v) /\
    full n (pre ++ gone) (total (rest ++ [d'])).
Proof.
  intros D SM V SB I U.
  assert (SS : size d' = (size d + 2)%nat) by (subst d'; unfold size; cbn [snd]; rewrite app_length; cbn [length]; lia).
  destruct (room_enough 2 d pre init s) as (gone & rest & E & I2 & T & U2); auto.
  { destruct SB as [_ SB]. lia. }
  exists gone, rest. split; [exact E|].
  assert (TT : total (rest ++ [d']) = (total (rest ++ [d]) + 2)%nat) by (rewrite !total_app, !total_one; lia).
  split; [|rewrite <- TT in U2; exact U2].
  unfold add_change. set (s2 := make_room (room s) 2 s) in *. clearbody s2. subst init.
  assert (SM2 : Forall small (rest ++ [d])) by (rewrite <- app_assoc in SM; apply Forall_app in SM; tauto).
  destruct (there_last _ _ _ _ SM2 I2) as [_ SZ].
  destruct I2 as [L B O NW F TH]. rewrite SZ. set (P := total (pre ++ gone)) in *.
  pose proof (image_length _ 0 (small_ok _ SM2)) as IL.
  assert (IR : length (image 0 rest) = total rest) by (apply image_length, small_ok; apply Forall_app in SM2; tauto).
  assert (PM : ((s_newest s2 + size d) mod length (s_buf s2) = (P + length (image 0 (rest ++ [d]))) mod length (s_buf s2))%nat).
  { rewrite L, NW, Nat.add_mod_idemp_l by lia. f_equal. rewrite IL, !total_app, total_one. unfold P. rewrite total_app. lia. }
  assert (LP : (0 < length (s_buf s2))%nat) by lia. rewrite (put_cong _ _ _ _ LP PM).
  assert (T1 : on_ring (put (s_buf s2) (P + length (image 0 (rest ++ [d]))) (to_be 2 v)) P (image 0 (rest ++ [d]) ++ to_be 2 v ++ [])).
  { apply put_middle; [|exact TH|intros i J; cbn in J; lia]. rewrite IL, to_be_length. cbn [length]. lia. }
  set (buf1 := put (s_buf s2) (P + length (image 0 (rest ++ [d]))) (to_be 2 v)) in *.
  assert (L1 : length buf1 = n) by (unfold buf1; rewrite put_length by lia; exact L).
  assert (B1 : bytes_ok buf1) by (apply put_ok; auto using to_be_ok).
  clearbody buf1. rewrite app_nil_r, image_snoc in T1. rewrite image_snoc, app_length in IL.
  set (A := image 0 rest) in *. set (pv := last_size 0 rest) in *. unfold record in T1, IL.
  rewrite <- !app_assoc in T1.
  apply on_ring_app in T1 as [TA T1]. apply on_ring_app in T1 as [TP T1]. apply on_ring_app in T1 as [_ T1].
  rewrite !to_be_length in T1.
  split; cbn [s_buf s_oldest s_newest].
  - rewrite put_length by lia. exact L1.
  - apply put_ok; auto using to_be_ok.
  - exact O.
  - exact NW.
  - lia.
  - rewrite image_snoc. fold A pv. unfold record. rewrite SS, D. cbn [fst snd].
    rewrite map_app, concat_app. cbn [map concat]. rewrite app_nil_r.
    rewrite (put_cong _ _ (P + length (A ++ to_be 2 (Z.of_nat pv)))).
    + rewrite (app_assoc A). apply put_middle.
      * rewrite !app_length, !to_be_length in *. rewrite total_app, total_one in *. lia.
      * apply on_ring_app. auto.
      * rewrite app_length, !to_be_length. rewrite Nat.add_assoc. exact T1.
    + lia.
    + rewrite L1, NW, Nat.add_mod_idemp_l by lia. f_equal. rewrite app_length, to_be_length, IR. unfold P. rewrite !total_app. lia.
Qed.

End Fixed.

(** ** What happened, step by step *)

Lemma history_snoc us u : history (us ++ [u]) = note (history us) u.
Proof. unfold history. apply fold_left_app. Qed.

Lemma use_snoc buf us u : use buf (us ++ [u]) = write buf (use buf us) u.
Proof. unfold use. apply fold_left_app. Qed.

Lemma note_change h d v : note (h ++ [d]) (Change v) = h ++ [(fst d, snd d ++ [v])].
Proof. unfold note. rewrite rev_app_distr. cbn [rev List.app]. destruct d as [b vs]. now rewrite rev_involutive. Qed.

Lemma snoc_cases {X} (l : list X) : l = [] \/ exists a x, l = a ++ [x].
Proof. induction l as [|x l _] using rev_ind; eauto. Qed.

Lemma history_ok us : Forall usage_ok us -> Forall happened_ok (history us).
Proof.
  induction us as [|u us IH] using rev_ind; intros H; [constructor|]. rewrite history_snoc. apply Forall_app in H as [H1 H2].
  inversion H2 as [|? ? U _]; subst. specialize (IH H1). destruct u as [b|v].
  - apply Forall_app. split; auto. constructor; [|constructor]. destruct U as (U1 & U2 & U3). repeat split; auto. constructor.
  - destruct (snoc_cases (history us)) as [E|(h & d & E)]; rewrite E in *; [constructor|]. rewrite note_change.
    apply Forall_app in IH as [I1 I2]. inversion I2 as [|? ? (A & B & C & D) _]; subst.
    apply Forall_app. split; auto. constructor; [|constructor]. split; [exact A|]. split; [exact B|]. split; [exact C|].
    cbn [snd]. apply Forall_app. split; auto.
Qed.

Lemma use_inv n buf us : (24 <= n)%nat /\ Z.of_nat n < 65536 -> bytes_ok buf -> length buf = n -> Forall usage_ok us ->
  Forall (fun d => (size d + 12 <= n)%nat) (history us) ->
  (history us = [] /\ use buf us = None) \/
  exists pre init d s, history us = pre ++ init ++ [d] /\ use buf us = Some s /\ inv n pre init d s /\
    full n pre (total (init ++ [d])).
Proof.
  intros N B L. induction us as [|u us IH] using rev_ind; intros H S; [left; auto|].
  pose proof (history_ok _ H) as OK. rewrite history_snoc in *. rewrite use_snoc. apply Forall_app in H as [H1 H2].
  inversion H2 as [|? ? U _]; subst.
  assert (SMA : Forall (small (length buf)) (note (history us) u)).
  { rewrite Forall_forall in *. intros d I. split; auto. }
  assert (S' : Forall (fun d => (size d + 12 <= length buf)%nat) (history us)).
  { destruct u as [b|v]; [cbn [note] in S; apply Forall_app in S; tauto|].
    destruct (snoc_cases (history us)) as [E|(h & d & E)]; rewrite E in *; [constructor|]. rewrite note_change in S.
    apply Forall_app in S as [S1 S2]. apply Forall_app. split; auto. inversion S2 as [|? ? S3 _]; subst.
    constructor; [|constructor]. unfold size in *. cbn [snd] in S3. rewrite app_length in S3. lia. }
  assert (SM : Forall (small (length buf)) (history us)).
  { pose proof (history_ok us H1) as O. rewrite Forall_forall in *. intros d I. split; auto. }
  destruct (IH H1 S') as [[E1 E2]|(pre & init & d & s & E1 & E2 & I & F)]; rewrite E1, E2 in *.
  - destruct u as [b|v]; [|left; auto]. right. cbn [note List.app] in *. inversion SMA as [|? ? [K SZ] _]; subst.
    exists [], [], (b, []), (mkStore (put buf 0 (to_be 2 0 ++ to_be 2 12 ++ b)) 0 0). cbn [List.app].
    split; [reflexivity|]. split; [reflexivity|]. split; [|left; reflexivity].
    pose proof (record_length 0 _ K) as RL. unfold record in RL. cbn [fst snd map concat] in RL. rewrite app_nil_r in RL.
    change (size (b, [])) with 12%nat in *. change (Z.of_nat 0) with 0 in RL. change (Z.of_nat 12) with 12 in RL.
    split; cbn [s_buf s_oldest s_newest List.app].
    + apply put_length. lia.
    + apply put_ok; auto. rewrite !bytes_ok_app. split; [apply to_be_ok|]. split; [apply to_be_ok|]. apply K.
    + cbn. rewrite Nat.mod_0_l; lia.
    + cbn. rewrite Nat.mod_0_l; lia.
    + rewrite total_one. change (size (b, [])) with 12%nat. lia.
    + unfold image. cbn [records concat]. unfold record. change (size (b, [])) with 12%nat. cbn [fst snd map concat].
      rewrite !app_nil_r. apply put_written. change (Z.of_nat 0) with 0. change (Z.of_nat 12) with 12. lia.
  - right. apply Forall_app in SM as [_ SM]. destruct u as [b|v]; cbn [write].
    + cbn [note] in *. assert (SB : small (length buf) (b, [])) by (apply Forall_app in SMA as [_ SMA]; now inversion SMA).
      destruct (start_inv (length buf) N pre init d s b SM SB I F) as (gone & rest & E & I' & F').
      exists (pre ++ gone), (rest ++ [d]), (b, []), (start_day s b). split; [subst init; rewrite <- !app_assoc; reflexivity|]. auto.
    + rewrite app_assoc, note_change in *. assert (SB : small (length buf) (fst d, snd d ++ [v])) by (apply Forall_app in SMA as [_ SMA]; now inversion SMA).
      destruct (change_inv (length buf) N pre init d _ s v eq_refl SM U SB I F) as (gone & rest & E & I' & F').
      exists (pre ++ gone), rest, (fst d, snd d ++ [v]), (add_change s v). split; [subst init; rewrite <- !app_assoc; reflexivity|]. auto.
Qed.

(** ** Reading *)

Lemma record_head p d : exists x y z w, to_be 2 (Z.of_nat p) = [x; y] /\ to_be 2 (Z.of_nat (size d)) = [z; w].
Proof.
  pose proof (to_be_length 2 (Z.of_nat p)) as A. pose proof (to_be_length 2 (Z.of_nat (size d))) as B.
  destruct (to_be 2 (Z.of_nat p)) as [|x [|y [|? ?]]]; try discriminate A.
  destruct (to_be 2 (Z.of_nat (size d))) as [|z [|w [|? ?]]]; try discriminate B. eauto 8.
Qed.

Lemma entries_changes vs : Forall (fun v => 0 <= v < 65536) vs -> entries (concat (map (to_be 2) vs)) = vs.
Proof.
  induction vs as [|v vs IH]; intros H; [reflexivity|]. inversion H as [|? ? V H']; subst. cbn [map concat].
  pose proof (be16_to_be v V) as E. pose proof (to_be_length 2 v) as L.
  destruct (to_be 2 v) as [|a [|b [|? ?]]]; try discriminate L. cbn [nth] in E. cbn [List.app entries]. rewrite IH by auto. now rewrite E.
Qed.

Lemma record_ok prev d : happened_ok d -> bytes_ok (record prev d).
Proof.
  intros (B & _ & _ & _). unfold record. rewrite !bytes_ok_app. split; [apply to_be_ok|]. split; [apply to_be_ok|]. split; [exact B|].
  induction (snd d) as [|v vs IH]; [constructor|]. cbn [map concat]. apply bytes_ok_app. auto using to_be_ok.
Qed.

Lemma record_shows prev d : happened_ok d -> shows d (day_of (record prev d)).
Proof.
  intros K. destruct (C46_changes_partial (record prev d) (record_ok prev d K)) as [A R].
  pose proof (record_length prev d K) as RL. destruct K as (B & L & AD & V). destruct (record_head prev d) as (x & y & z & w & E1 & E2).
  destruct d as [b vs]. cbn [fst snd] in *. unfold record in *. cbn [fst snd] in *. rewrite E1, E2 in *.
  do 8 (destruct b as [|? b]; [discriminate L|]). destruct b; [|discriminate L]. cbn [List.app] in *.
  assert (O : is_ok (parse_day (x :: y :: z :: w :: z0 :: z1 :: z2 :: z3 :: z4 :: z5 :: z6 :: z7 :: concat (map (to_be 2) vs))) = true).
  { apply A. split; [cbn [length]; lia|exact AD]. }
  destruct (parse_day (x :: y :: z :: w :: z0 :: z1 :: z2 :: z3 :: z4 :: z5 :: z6 :: z7 :: concat (map (to_be 2) vs))) as [r|?|] eqn:P; try discriminate O.
  unfold day_of. rewrite P. destruct (R r eq_refl) as (R1 & _ & _ & R4 & R5 & R6).
  cbn [skipn] in R1. rewrite entries_changes in R1 by exact V. split; [exact R6|]. split; [exact R5|]. split; [exact R4|exact R1].
Qed.

Lemma ring_records buf : (0 < length buf)%nat -> Z.of_nat (length buf) < 65536 -> forall ds p prev, Forall happened_ok ds ->
  Forall (fun d => (size d <= length buf)%nat) ds -> Z.of_nat prev < 65536 -> on_ring buf p (image prev ds) ->
  ring_any buf (p mod length buf) (Z.of_nat prev) (records prev ds).
Proof.
  intros L LZ. induction ds as [|d t IH]; intros p prev K S P O; [exact I|].
  inversion K as [|? ? K1 K2]; subst. inversion S as [|? ? S1 S2]; subst. unfold image in O. cbn [records concat] in *.
  apply on_ring_app in O as [O1 O2]. pose proof (record_length prev d K1) as RL. rewrite RL in O2. cbn [ring_any]. rewrite RL.
  pose proof (size_pos d). split; [apply Nat.mod_upper_bound; lia|]. split; [lia|]. split; [now apply on_ring_mod|].
  unfold be16, record. split; [|split].
  - rewrite !app_nth1 by (rewrite to_be_length; lia). apply be16_to_be. lia.
  - rewrite !(app_nth2 (to_be 2 (Z.of_nat prev))) by (rewrite to_be_length; lia). rewrite to_be_length.
    rewrite !app_nth1 by (rewrite to_be_length; lia). apply be16_to_be. lia.
  - rewrite Nat.add_mod_idemp_l by lia. apply IH; auto. lia.
Qed.

Lemma newest_records n init d : (0 < n)%nat -> Forall happened_ok init -> forall p prev,
  newest_at n (p mod n) (records prev (init ++ [d])) = ((p + total init) mod n)%nat.
Proof.
  intros L. induction init as [|x t IH]; intros K p prev; [cbn; now rewrite Nat.add_0_r|].
  inversion K as [|? ? K1 K2]; subst. cbn [List.app records].
  assert (C : exists r l, records (size x) (t ++ [d]) = r :: l) by (destruct t; eexists _, _; reflexivity).
  destruct C as (r & l & C). pose proof (IH K2 (p + size x)%nat (size x)) as Q. rewrite C in *.
  change (newest_at n (p mod n) (record prev x :: r :: l)) with (newest_at n ((p mod n + length (record prev x)) mod n) (r :: l)).
  rewrite record_length, Nat.add_mod_idemp_l, Q, total_cons by (auto; lia). f_equal. lia.
Qed.

Fixpoint places (n p : nat) (ds : list happened) : list nat :=
  match ds with
  | [] => []
  | d :: t => (p mod n)%nat :: places n (p + size d) t
  end.

Lemma starts_records n ds : (0 < n)%nat -> Forall happened_ok ds -> forall p prev, starts n (p mod n) (records prev ds) = places n p ds.
Proof.
  intros L. induction ds as [|d t IH]; intros K p prev; [reflexivity|]. inversion K; subst. cbn [records starts places].
  rewrite record_length, Nat.add_mod_idemp_l, IH by (auto; lia). reflexivity.
Qed.

Lemma records_app a b : forall prev, records prev (a ++ b) = records prev a ++ records (last_size prev a) b.
Proof. induction a as [|d t IH]; intros prev; [reflexivity|]. cbn [List.app records last_size]. now rewrite IH. Qed.

Lemma records_length ds : forall prev, length (records prev ds) = length ds.
Proof. induction ds as [|d t IH]; intros prev; [reflexivity|]. cbn [records length]. now rewrite IH. Qed.

Lemma places_app n a b : forall p, places n p (a ++ b) = places n p a ++ places n (p + total a) b.
Proof.
  induction a as [|d t IH]; intros p; cbn [List.app places]; [now rewrite Nat.add_0_r|]. rewrite IH, total_cons, Nat.add_assoc. reflexivity.
Qed.

Lemma places_length n ds : forall p, length (places n p ds) = length ds.
Proof. induction ds as [|d t IH]; intros p; [reflexivity|]. cbn [places length]. now rewrite IH. Qed.

Lemma places_all n ds (Q : nat -> Prop) : forall p, (forall a d b, ds = a ++ d :: b -> Q ((p + total a) mod n)%nat) -> Forall Q (places n p ds).
Proof.
  induction ds as [|d t IH]; intros p H; [constructor|]. cbn [places]. constructor.
  - specialize (H [] d t eq_refl). now rewrite Nat.add_0_r in H.
  - apply IH. intros a x b ->. specialize (H (d :: a) x b eq_refl). now rewrite total_cons, Nat.add_assoc in H.
Qed.

(** Some day crosses the end of the string with its two lengths, or none does. *)
Lemma split_crossing n ds : forall p, exists h2 h3, ds = h2 ++ h3 /\
  (forall a d b, h3 = a ++ d :: b -> ((p + total (h2 ++ a)) mod n + 4 <= n)%nat) /\
  (h2 = [] \/ exists h d, h2 = h ++ [d] /\ (n < (p + total h) mod n + 4)%nat).
Proof.
  induction ds as [|d t IH]; intros p.
  { exists [], []. split; [reflexivity|]. split; [|now left]. intros a d b E. destruct a; discriminate E. }
  destruct (IH (p + size d)%nat) as (h2 & h3 & E & A & B). destruct B as [B|(h & x & B & C)].
  - subst h2. cbn [List.app] in *. subst h3. destruct (Nat.le_gt_cases (p mod n + 4) n) as [L|L].
    + exists [], (d :: t). split; [reflexivity|]. split; [|now left]. intros [|y a] x b Q; injection Q as -> ->.
      * cbn [List.app]. change (total []) with 0%nat. now rewrite Nat.add_0_r.
      * cbn [List.app]. rewrite total_cons, Nat.add_assoc. eapply A. reflexivity.
    + exists [d], t. split; [reflexivity|]. split.
      * intros a x b Q. cbn [List.app]. rewrite total_cons, Nat.add_assoc. eapply A, Q.
      * right. exists [], d. split; [reflexivity|]. change (total []) with 0%nat. now rewrite Nat.add_0_r.
  - exists (d :: h2), h3. split; [cbn [List.app]; congruence|]. split.
    + intros a y b Q. cbn [List.app]. rewrite total_cons, Nat.add_assoc. eapply A, Q.
    + right. exists (d :: h), x. split; [rewrite B; reflexivity|]. rewrite total_cons, Nat.add_assoc. exact C.
Qed.

Lemma read_file s ds : bytes_ok (s_buf s) -> (1 <= length (s_buf s))%nat -> Z.of_nat (length (s_buf s)) < 65536 -> (s_newest s < length (s_buf s))%nat ->
  (parse_days (s_buf s) (Z.of_nat (s_newest s)) = Ok ds -> exists a, unmarshal_activity (file_of s) = Ok a /\ act_days a = ds) /\
  ((exists e, parse_days (s_buf s) (Z.of_nat (s_newest s)) = Err e) -> exists e, unmarshal_activity (file_of s) = Err e).
Proof.
  intros B L LZ NW.
  assert (BF : bytes_ok (file_of s)) by (unfold file_of; rewrite !bytes_ok_app; auto using to_be_ok).
  destruct (C44_activity_bounded (file_of s) BF) as (NP & A & C).
  assert (P : be16 (file_of s) 2 = Z.of_nat (s_newest s)).
  { unfold be16, file_of. rewrite !(app_nth2 (to_be 2 (Z.of_nat (s_oldest s)))) by (rewrite to_be_length; lia). rewrite to_be_length.
    rewrite !app_nth1 by (rewrite to_be_length; lia). apply be16_to_be. lia. }
  assert (SK : skipn 4 (file_of s) = s_buf s).
  { unfold file_of. rewrite app_assoc. rewrite skipn_app, skipn_all2 by (rewrite app_length, !to_be_length; lia).
    rewrite app_length, !to_be_length. reflexivity. }
  rewrite P, SK in *. split.
  - intros E. apply C; auto. unfold file_of. rewrite !app_length, !to_be_length. lia.
  - intros (e & E). destruct (unmarshal_activity (file_of s)) as [a|e'|]; [|eauto|congruence].
    destruct (A a eq_refl) as (_ & _ & _ & _ & Q). congruence.
Qed.

Lemma shows_all ds : forall prev, Forall happened_ok ds -> Forall2 shows ds (map day_of (records prev ds)).
Proof.
  induction ds as [|d t IH]; intros prev K; [constructor|]. inversion K; subst. cbn [records map]. constructor; auto using record_shows.
Qed.

(** A card on which vehicle units have stored days and changes in the prescribed way.
    The days on it are the latest that fit ([h2 ++ h3]).  Read are, in order, those
    behind the last one whose two lengths do not stand together because the string
    ends between them ([h3]); more than 365 are an error.  Missing for the full claim:
    the days [h2] (see C145_in_use_refuted), and changes coded 0 and 65535. *)
Theorem C145_in_use_partial : forall buf us, bytes_ok buf -> (24 <= length buf)%nat -> Z.of_nat (length buf) < 65536 ->
  Forall usage_ok us -> Forall (fun d => (size d + 12 <= length buf)%nat) (history us) -> history us <> [] ->
  exists h1 h2 h3 s, history us = h1 ++ h2 ++ h3 /\ h2 ++ h3 <> [] /\ use buf us = Some s /\
    (total (h2 ++ h3) <= length buf)%nat /\
    (h1 = [] \/ exists h d, h1 = h ++ [d] /\ (length buf < total (d :: h2 ++ h3))%nat) /\
    (forall a d b, h3 = a ++ d :: b -> (total (h1 ++ h2 ++ a) mod length buf + 4 <= length buf)%nat) /\
    (h2 = [] \/ exists h d, h2 = h ++ [d] /\ (length buf < total (h1 ++ h) mod length buf + 4)%nat) /\
    ((length h3 <= 365)%nat -> exists a, unmarshal_activity (file_of s) = Ok a /\ Forall2 shows h3 (act_days a)) /\
    ((365 < length h3)%nat -> exists e, unmarshal_activity (file_of s) = Err e).
Proof.
  intros buf us B L LZ U S NE. pose proof (history_ok us U) as OK.
  destruct (use_inv (length buf) buf us (conj L LZ) B eq_refl U S) as [[E _]|(pre & init & d & s & E & US & I & F)]; [contradiction|].
  destruct (split_crossing (length buf) (init ++ [d]) (total pre)) as (h2 & h3 & EL & A & C).
  exists pre, h2, h3, s. rewrite EL in E. split; [exact E|]. split; [rewrite <- EL; destruct init; discriminate|]. split; [exact US|].
  split; [rewrite <- EL; apply I|]. split.
  { destruct F as [F|(p & x & F & G)]; [now left|right]. exists p, x. split; auto. now rewrite total_cons, <- EL. }
  assert (A' : forall a d b, h3 = a ++ d :: b -> (total (pre ++ h2 ++ a) mod length buf + 4 <= length buf)%nat).
  { intros a x b Q. rewrite total_app. eapply A, Q. }
  assert (C' : h2 = [] \/ exists h d, h2 = h ++ [d] /\ (length buf < total (pre ++ h) mod length buf + 4)%nat).
  { destruct C as [C|(h & x & C1 & C2)]; [now left|right]. exists h, x. split; auto. now rewrite total_app. }
  split; [exact A'|]. split; [exact C'|].
  destruct I as [LS BS O NW FT TH]. rewrite total_app in NW. rewrite E in OK, S. apply Forall_app in OK as [_ OK]. apply Forall_app in S as [_ S].
  assert (LP : (0 < length (s_buf s))%nat) by lia.
  assert (S' : Forall (fun d => (size d <= length (s_buf s))%nat) (h2 ++ h3)) by (eapply Forall_impl; [|exact S]; cbn; intros; lia).
  rewrite EL in TH. assert (LZ' : Z.of_nat (length (s_buf s)) < 65536) by (rewrite LS; exact LZ).
  pose proof (ring_records (s_buf s) LP LZ' (h2 ++ h3) (total pre) 0 OK S' ltac:(lia) TH) as R.
  assert (NW' : s_newest s = newest_at (length (s_buf s)) (total pre mod length (s_buf s)) (records 0 (h2 ++ h3))).
  { rewrite <- EL in *. rewrite LS, newest_records; [exact NW|lia|]. now apply Forall_app in OK. }
  assert (PD : ((length h3 <= 365)%nat -> parse_days (s_buf s) (Z.of_nat (s_newest s)) = Ok (map day_of (records (last_size 0 h2) h3))) /\
    ((365 < length h3)%nat -> exists e, parse_days (s_buf s) (Z.of_nat (s_newest s)) = Err e)).
  { rewrite NW'. pose proof (starts_records (length (s_buf s)) (h2 ++ h3) LP OK (total pre) 0) as ST.
    assert (NC : Forall (fun q => ~ crosses (s_buf s) q) (places (length (s_buf s)) (total pre + total h2) h3)).
    { apply places_all. intros a x b Q. unfold crosses. rewrite LS. pose proof (A a x b Q) as W. rewrite total_app, Nat.add_assoc in W. lia. }
    destruct C as [C|(h & x & C1 & C2)].
    - subst h2. cbn [List.app last_size] in *. change (total []) with 0%nat in NC. rewrite Nat.add_0_r in NC.
      rewrite <- ST in NC. apply ring_any_of in R; [|exact NC].
      assert (N3 : records 0 h3 <> []) by (rewrite <- EL; destruct init; discriminate).
      pose proof (ring_visits (s_buf s) (records 0 h3) _ _ N3 R) as V.
      destruct (visits_count (s_buf s) _ _ _ BS V (chain_end_first _ _)) as [V1 V2]. rewrite rev_length, records_length in V1, V2. split; [|exact V2].
      intros Q. rewrite V1 by exact Q. now rewrite map_rev, rev_involutive.
    - subst h2. rewrite last_size_snoc. rewrite <- app_assoc in R, ST, OK |- *. cbn [List.app] in R, ST, OK |- *. rewrite records_app in R, ST |- *.
      cbn [records] in R, ST |- *.
      pose proof (C45_crossing_partial (s_buf s) _ _ (records 0 h) (record (last_size 0 h) x) (records (size x) h3) BS R) as X.
      rewrite ST, !records_length in X. cbv zeta in X. apply X.
      + rewrite places_app, app_nth2; rewrite places_length; [|lia]. rewrite Nat.sub_diag. cbn [places nth]. unfold crosses. rewrite LS. exact C2.
      + rewrite places_app, skipn_app, skipn_all2 by (rewrite places_length; lia). rewrite places_length.
        replace (Datatypes.S (length h) - length h)%nat with 1%nat by lia. cbn [places skipn List.app].
        rewrite total_app, total_one, Nat.add_assoc in NC. exact NC. }
  assert (NB : (s_newest s < length (s_buf s))%nat) by (rewrite NW, LS; apply Nat.mod_upper_bound; lia).
  destruct PD as [P1 P2]. destruct (read_file s (map day_of (records (last_size 0 h2) h3)) BS ltac:(lia) LZ' NB) as [R1 R2]. split.
  - intros Q. destruct (R1 (P1 Q)) as (a & UA & DA). exists a. split; [exact UA|]. rewrite DA. apply shows_all. now apply Forall_app in OK.
  - intros Q. apply R2, P2, Q.
Qed.
Print Assumptions C145_in_use_partial.

(** If no day of the card's life starts in the last three bytes of the string, all
    days on the card are read, and they are the latest that fit. *)
Corollary C145_nothing_lost_partial : forall buf us, bytes_ok buf -> (24 <= length buf)%nat -> Z.of_nat (length buf) < 65536 ->
  Forall usage_ok us -> Forall (fun d => (size d + 12 <= length buf)%nat) (history us) -> history us <> [] ->
  (forall a d b, history us = a ++ d :: b -> (total a mod length buf + 4 <= length buf)%nat) -> (length (history us) <= 365)%nat ->
  exists gone there s a, history us = gone ++ there /\ (total there <= length buf)%nat /\
    (gone = [] \/ exists h d, gone = h ++ [d] /\ (length buf < total (d :: there))%nat) /\
    use buf us = Some s /\ unmarshal_activity (file_of s) = Ok a /\ Forall2 shows there (act_days a).
Proof.
  intros buf us B L LZ U S NE X Y.
  destruct (C145_in_use_partial buf us B L LZ U S NE) as (h1 & h2 & h3 & s & E & _ & US & T & G & _ & C & R & _).
  assert (E2 : h2 = []).
  { destruct C as [C|(h & d & C1 & C2)]; [exact C|exfalso]. subst h2. specialize (X (h1 ++ h) d h3).
    rewrite E, <- !app_assoc in X. specialize (X eq_refl). lia. }
  subst h2. cbn [List.app] in *. assert (L3 : (length h3 <= 365)%nat) by (rewrite E, app_length in Y; lia).
  destruct (R L3) as (a & UA & SH). exists h1, h3, s, a. auto 10.
Qed.
Print Assumptions C145_nothing_lost_partial.

(** A fixed part: date, counter 1, distance 25. *)
Definition sample_fixed (date : Z) : bytes := [0; 0; 0; date; 0; 1; 0; 25].

(** Not all days on a card are read.  Here two are on the card, the newest starts two
    bytes before the end of the string, and none is read. *)
Theorem C145_in_use_refuted : exists buf us gone there s a, bytes_ok buf /\ (24 <= length buf)%nat /\ Z.of_nat (length buf) < 65536 /\
  Forall usage_ok us /\ Forall (fun d => (size d + 12 <= length buf)%nat) (history us) /\
  history us = gone ++ there /\ (total there <= length buf)%nat /\ length there = 2%nat /\
  use buf us = Some s /\ unmarshal_activity (file_of s) = Ok a /\ act_days a = [].
Proof.
  exists (zeros 30), [Day (sample_fixed 1); Change 2053; Day (sample_fixed 2); Change 2054; Day (sample_fixed 3)],
    [(sample_fixed 1, [2053])], [(sample_fixed 2, [2054]); (sample_fixed 3, [])].
  do 2 eexists. split; [apply bytes_okb_ok; reflexivity|]. split; [vm_compute; lia|]. split; [reflexivity|].
  assert (D : forall x, 0 <= x < 256 -> usage_ok (Day (sample_fixed x))).
  { intros x H. split; [repeat constructor; cbn; lia|]. split; [reflexivity|]. repeat constructor; cbn; lia. }
  split; [repeat constructor; try apply D; try lia|]. split; [repeat constructor; vm_compute; lia|].
  split; [reflexivity|]. split; [vm_compute; lia|]. split; [reflexivity|].
  split; [vm_compute; reflexivity|]. split; [vm_compute; reflexivity|]. reflexivity.
Qed.
Print Assumptions C145_in_use_refuted.

(** A life in which the first day is overwritten, the last one goes around the end of
    the string, and both days that are left are read. *)
Example C145_example : let us := [Day (sample_fixed 1); Change 2053; Day (sample_fixed 2); Day (sample_fixed 3); Change 2055] in
  bytes_ok (zeros 30) /\ Forall usage_ok us /\ Forall (fun d => (size d + 12 <= length (zeros 30))%nat) (history us) /\
  (forall a d b, history us = a ++ d :: b -> (total a mod length (zeros 30) + 4 <= length (zeros 30))%nat) /\
  exists s x y, use (zeros 30) us = Some s /\ s_oldest s = 14%nat /\ s_newest s = 26%nat /\
    unmarshal_activity (file_of s) = Ok (mkAct 14 26 (s_buf s) [x; y]) /\ day_changes x = [] /\ map change_bits (day_changes y) = [2055].
Proof.
  cbv zeta. split; [apply bytes_okb_ok; reflexivity|].
  assert (D : forall x, 0 <= x < 256 -> usage_ok (Day (sample_fixed x))).
  { intros x H. split; [repeat constructor; cbn; lia|]. split; [reflexivity|]. repeat constructor; cbn; lia. }
  split; [repeat constructor; try apply D; try lia|]. split; [repeat constructor; vm_compute; lia|]. split.
  - assert (H : history [Day (sample_fixed 1); Change 2053; Day (sample_fixed 2); Day (sample_fixed 3); Change 2055] =
      [(sample_fixed 1, [2053]); (sample_fixed 2, []); (sample_fixed 3, [2055])]) by reflexivity.
    rewrite H. intros a d b Q. assert (LA : (length a < 3)%nat) by (apply (f_equal (@length _)) in Q; rewrite app_length in Q; cbn in Q; lia).
    assert (FA : a = firstn (length a) [(sample_fixed 1, [2053]); (sample_fixed 2, []); (sample_fixed 3, [2055])]).
    { rewrite Q, firstn_app, Nat.sub_diag, firstn_all, firstn_O. now rewrite app_nil_r. }
    rewrite FA. destruct (length a) as [|[|[|k]]]; [| | |lia]; vm_compute; lia.
  - do 3 eexists. split; [vm_compute; reflexivity|]. split; [reflexivity|]. split; [reflexivity|].
    split; [vm_compute; reflexivity|]. split; reflexivity.
Qed.
