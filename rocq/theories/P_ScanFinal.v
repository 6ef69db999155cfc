(** What the records handed out by the scanner show once scanning has finished,
    for files of every size (bufio/scan.go of the standard library, see Scanner). *)

From Verif Require Import Base Chunks Scanner P_Scanner.

(** Bytes of whole records that fit the buffer. *)
Definition turn (n : nat) : nat := (start_buf_size / n * n)%nat.

(** The byte at [p < turn n] of the buffer, [B], after all of [e] went through it:
    the last of the bytes of [e] that were put there; an incomplete last record is
    moved to the front if it lies behind the middle of the buffer. *)
Definition final_byte (n : nat) (B e : bytes) (p : nat) : Z :=
  let J := (length e / turn n)%nat in
  let L := (length e mod turn n)%nat in
  if (start_buf_size / 2 <? L / n * n)%nat && (p <? L mod n)%nat then nth (J * turn n + L / n * n + p) e 0
  else if (p <? L)%nat then nth (J * turn n + p) e 0
  else if (0 <? J)%nat then nth ((J - 1) * turn n + p) e 0
  else nth p B 0.

Lemma turn_bounds n : (0 < n)%nat -> (2 * n <= start_buf_size)%nat ->
  (start_buf_size - n < turn n <= start_buf_size)%nat /\ (start_buf_size / 2 < turn n)%nat /\ (n <= turn n)%nat.
Proof.
  intros N H. unfold turn. pose proof (Nat.div_mod start_buf_size n ltac:(lia)) as D.
  pose proof (Nat.mod_upper_bound start_buf_size n ltac:(lia)) as U.
  pose proof (Nat.div_mod start_buf_size 2 ltac:(lia)) as D2.
  pose proof (Nat.mod_upper_bound start_buf_size 2 ltac:(lia)) as U2. nia.
Qed.

Lemma turn_mod n : (0 < n)%nat -> (turn n mod n = 0)%nat /\ (turn n / n = start_buf_size / n)%nat.
Proof. intros N. unfold turn. split; [apply Nat.mod_mul|apply Nat.div_mul]; lia. Qed.

(** Records are handed out while whole ones are in the buffer. *)
Lemma emit_many n B L rest eof old : (0 < n)%nat -> (L <= length B)%nat ->
  forall c k fuel, (k + c * n <= L)%nat ->
  scan_loop (c + fuel) (split_fixed n) (mkScan B k L rest eof old) =
  let '(ts, r, s) := scan_loop fuel (split_fixed n) (mkScan B (k + c * n) L rest eof old) in
  (map (fun i => mkTok (sub B (k + i * n) n) (length old) (k + i * n)) (seq 0 c) ++ ts, r, s).
Proof.
  intros N LB. induction c as [|c IH]; intros k fuel H.
  - cbn [Nat.add seq map List.app Nat.mul]. rewrite Nat.add_0_r. destruct (scan_loop _ _ _) as [[ts r] s]; reflexivity.
  - cbn [Nat.add scan_loop]. rewrite scan_step_emit by lia. rewrite (IH (k + n)%nat fuel) by lia.
    replace (k + n + c * n)%nat with (k + S c * n)%nat by lia.
    destruct (scan_loop _ _ _) as [[ts r] s]. cbn [seq map List.app]. rewrite Nat.mul_0_l, Nat.add_0_r.
    do 3 f_equal. rewrite <- seq_shift, map_map. f_equal. apply map_ext. intros i. f_equal; [f_equal|]; lia.
Qed.

(** Whole records are used up: the state after the next read. *)
Lemma step_short n B k L rest old : (0 < n)%nat -> (L - k < n)%nat -> (k <= L)%nat -> (L <= length B)%nat ->
  (0 < L)%nat -> (n <= length B)%nat -> (length B <= max_token_size)%nat ->
  scan_step (split_fixed n) (mkScan B k L rest false old) =
  More (read (shift (mkScan B k L rest false old))).
Proof.
  intros N H K LB L0 NB MB. set (s := mkScan B k L rest false old).
  assert (W : length (window s) = (L - k)%nat).
  { unfold window, s. cbn [sc_start sc_end sc_buf]. apply sub_length. lia. }
  assert (I : inv s).
  { unfold inv, s. cbn [sc_start sc_end sc_buf sc_eof]. repeat split; try lia; discriminate. }
  destruct (shift_spec s I eq_refl) as (I1 & W1 & R1 & E1 & Z1 & L1).
  assert (SB : length (sc_buf (shift s)) = length B).
  { unfold shift. destruct ((0 <? sc_start s)%nat && _); [|reflexivity]. cbn [sc_buf].
    rewrite copy_into_length by lia. reflexivity. }
  assert (NF : (sc_end (shift s) =? length (sc_buf (shift s)))%nat = false).
  { apply Nat.eqb_neq. intros F1. specialize (Z1 F1). rewrite Z1, F1, SB in L1.
    unfold s in L1. cbn [sc_start sc_end] in L1. lia. }
  unfold scan_step. change (sc_eof s) with false. unfold split_fixed at 1. rewrite W.
  destruct (Nat.ltb_spec (L - k) n); [|lia].
  assert (G : grow (shift s) = Some (shift s)) by (unfold grow; rewrite NF; reflexivity).
  destruct ((_ <? _)%nat || false); rewrite G; reflexivity.
Qed.

Lemma nth_behind (l : bytes) k p : nth p (skipn k l) 0 = nth (k + p) l 0.
Proof.
  revert l. induction k as [|k IH]; intros l; [reflexivity|]. destruct l as [|x l]; [now destruct p|]. apply IH.
Qed.

Lemma nth_front b w j p : (length w <= j)%nat -> (j <= length b)%nat ->
  nth p (copy_into b 0 j w) 0 = if (p <? length w)%nat then nth p w 0 else nth p b 0.
Proof.
  intros A C. unfold copy_into. rewrite Nat.sub_0_r, Nat.min_r by lia. cbn [firstn Nat.add List.app].
  rewrite firstn_all. destruct (Nat.ltb_spec p (length w)) as [H|H].
  - now apply app_nth1.
  - rewrite app_nth2 by lia. rewrite nth_behind. f_equal. lia.
Qed.

Lemma nth_same_prefix (B e : bytes) m p : firstn m B = firstn m e -> (p < m)%nat -> nth p B 0 = nth p e 0.
Proof.
  intros E H. rewrite <- (firstn_skipn m B), <- (firstn_skipn m e), E.
  destruct (Nat.lt_ge_cases p (length (firstn m e))) as [A|A].
  - now rewrite !app_nth1 by auto.
  - pose proof (f_equal (@length Z) E) as EL. rewrite !firstn_length in EL. rewrite firstn_length in A.
    rewrite !nth_overflow; auto.
    + rewrite app_length, firstn_length, skipn_length. lia.
    + rewrite app_length, firstn_length, skipn_length. lia.
Qed.

Lemma sub_same_prefix (B e : bytes) m k c : firstn m B = firstn m e -> (k + c <= m)%nat -> sub B k c = sub e k c.
Proof.
  intros E H. unfold sub.
  assert (X : forall l : bytes, firstn c (skipn k l) = firstn c (skipn k (firstn m l))).
  { intros l. rewrite !firstn_skipn_comm, firstn_firstn, Nat.min_l by lia. reflexivity. }
  now rewrite (X B), (X e), E.
Qed.

(** The shift, when the whole records of a window from the start are used up. *)
Lemma shifted_buf B k L rest old p : (k <= L)%nat -> (L <= length B)%nat ->
  nth p (sc_buf (shift (mkScan B k L rest false old))) 0 =
  if ((0 <? k)%nat && ((L =? length B)%nat || (length B / 2 <? k)%nat)) && (p <? L - k)%nat
  then nth (k + p) B 0 else nth p B 0.
Proof.
  intros K LB. unfold shift. cbn [sc_start sc_end sc_buf].
  destruct ((0 <? k)%nat && ((L =? length B)%nat || (length B / 2 <? k)%nat)) eqn:Q; [|reflexivity].
  cbn [sc_buf andb]. unfold window. cbn [sc_start sc_end sc_buf].
  rewrite nth_front by (rewrite ?sub_length by lia; lia). rewrite sub_length by lia.
  destruct (Nat.ltb_spec p (L - k)); auto. now apply nth_sub.
Qed.

Lemma last_fill n B e old : (0 < n)%nat -> (2 * n <= start_buf_size)%nat -> length B = start_buf_size ->
  (0 < length e <= start_buf_size)%nat -> firstn (length e) B = e ->
  forall fuel, (length e / n + 2 <= fuel)%nat ->
  exists s', scan_loop fuel (split_fixed n) (mkScan B 0 (length e) [] false old) =
      (map (fun i => mkTok (sub e (i * n) n) (length old) ((i mod (start_buf_size / n)) * n)) (seq 0 (length e / n)),
       Ok tt, s') /\
    sc_old s' = old /\ length (sc_buf s') = start_buf_size /\
    forall p, (p < turn n)%nat -> nth p (sc_buf s') 0 = final_byte n B e p.
Proof.
  intros N NS LB LE PE fuel F. pose proof (turn_bounds n N NS) as (T1 & T2 & T3).
  pose proof start_le_max as SM.
  set (q := (length e / n)%nat).
  pose proof (Nat.div_mod (length e) n ltac:(lia)) as D. fold q in D.
  pose proof (Nat.mod_upper_bound (length e) n ltac:(lia)) as U. set (r := (length e mod n)%nat) in *.
  assert (DQ : (length e = q * n + r)%nat) by lia.
  replace fuel with (q + S (S (fuel - q - 2)))%nat by (unfold q in *; lia).
  rewrite emit_many by lia. cbn [Nat.add].
  cbn [scan_loop]. rewrite step_short by (clear - N NS T1 T3 LB LE SM DQ U; lia).
  set (s := mkScan B (q * n) (length e) [] false old).
  set (s1 := shift s).
  assert (R1 : sc_rest s1 = []) by (unfold s1, shift; destruct ((0 <? sc_start s)%nat && _); reflexivity).
  assert (O1 : sc_old s1 = old) by (unfold s1, shift; destruct ((0 <? sc_start s)%nat && _); reflexivity).
  assert (I : inv s).
  { unfold inv, s. cbn [sc_start sc_end sc_buf sc_eof]. repeat split; try lia; discriminate. }
  destruct (shift_spec s I eq_refl) as (I1 & W1 & _ & _ & _ & L1). fold s1 in I1, W1, L1.
  unfold read. rewrite R1.
  unfold scan_step at 1. cbn [sc_eof sc_start sc_end sc_buf sc_rest sc_old]. rewrite orb_true_r.
  set (s2 := mkScan (sc_buf s1) _ _ _ _ _).
  assert (W2 : window s2 = window s1) by reflexivity.
  unfold split_fixed at 1. rewrite W2, W1. rewrite (window_length s I). unfold s at 1 2. cbn [sc_start sc_end].
  destruct (Nat.ltb_spec (length e - q * n) n); [|lia].
  eexists. split; [|split; [|split]].
  - rewrite app_nil_r. f_equal. f_equal. apply map_ext_in. intros i Ii. apply in_seq in Ii. cbn [Nat.add].
    assert (IK : (i < start_buf_size / n)%nat).
    { apply Nat.lt_le_trans with q; [lia|]. unfold q. apply Nat.div_le_mono; lia. }
    rewrite (Nat.mod_small i) by auto. f_equal.
    apply (sub_same_prefix B e (length e)). { rewrite PE. now rewrite firstn_all. }
    nia.
  - cbn [sc_old]. exact O1.
  - cbn [sc_buf]. unfold s1, shift. destruct ((0 <? sc_start s)%nat && _); cbn [sc_buf]; auto.
    rewrite copy_into_length; auto; unfold s; cbn [sc_buf]; lia.
  - intros p P. cbn [sc_buf]. unfold s1, s. rewrite shifted_buf by lia. rewrite LB.
    assert (BE : forall i, (i < length e)%nat -> nth i B 0 = nth i e 0).
    { intros i Hi. apply (nth_same_prefix B e (length e)); auto. rewrite PE. now rewrite firstn_all. }
    replace (length e - q * n)%nat with r by lia.
    unfold final_byte. destruct (Nat.lt_ge_cases (length e) (turn n)) as [C|C].
    + rewrite (Nat.div_small (length e) (turn n)), (Nat.mod_small (length e) (turn n)) by auto.
      fold q r. cbn [Nat.mul Nat.add].
      destruct (Nat.eqb_spec (length e) start_buf_size); [lia|]. cbn [orb].
      replace ((0 <? q * n)%nat && (start_buf_size / 2 <? q * n)%nat) with (start_buf_size / 2 <? q * n)%nat.
      2:{ destruct (Nat.ltb_spec (start_buf_size / 2) (q * n)); [|now rewrite andb_false_r].
          destruct (Nat.ltb_spec 0 (q * n)); auto. lia. }
      destruct ((start_buf_size / 2 <? q * n)%nat && (p <? r)%nat) eqn:Q.
      * apply BE. apply andb_true_iff in Q as [_ Q]. apply Nat.ltb_lt in Q. lia.
      * destruct (Nat.ltb_spec p (length e)); [now apply BE|reflexivity].
    + assert (J : (length e / turn n = 1)%nat).
      { symmetry. apply (Nat.div_unique _ _ 1 (length e - turn n)); lia. }
      assert (M : (length e mod turn n = length e - turn n)%nat).
      { symmetry. apply (Nat.mod_unique _ _ 1); lia. }
      assert (Q : (q * n = turn n)%nat).
      { unfold q, turn. f_equal. destruct (turn_mod n N) as [_ TD]. rewrite <- TD.
        symmetry. replace (turn n / n)%nat with (start_buf_size / n)%nat.
        apply (Nat.div_unique _ _ _ (length e - turn n)); [lia|].
        rewrite (Nat.mul_comm n). fold (turn n). lia. }
      rewrite J, M, Q. cbn [Nat.mul Nat.sub]. change (0 <? 1)%nat with true. cbv iota.
      rewrite (Nat.div_small (length e - turn n) n) by lia. cbn [Nat.mul].
      destruct (Nat.ltb_spec (start_buf_size / 2) 0); [lia|]. cbn [andb].
      destruct (Nat.ltb_spec 0 (turn n)); [|lia]. destruct (Nat.ltb_spec (start_buf_size / 2) (turn n)); [|lia].
      rewrite orb_true_r. cbn [andb]. replace (length e - turn n)%nat with r by lia.
      destruct (Nat.ltb_spec p r); rewrite ?Nat.add_0_r; [|cbn [Nat.add]; apply BE; lia].
      apply BE. lia.
Qed.

Lemma final_byte_next n B B' e p : (0 < turn n)%nat -> (turn n <= length e)%nat ->
  ((length e / turn n = 1)%nat -> (length e - turn n <= p)%nat -> nth p B' 0 = nth p e 0) ->
  final_byte n B' (skipn (turn n) e) p = final_byte n B e p.
Proof.
  intros T L C. unfold final_byte. rewrite skipn_length, !nth_behind.
  assert (E : (length e = (length e - turn n) + 1 * turn n)%nat) by lia.
  assert (D : (length e / turn n = (length e - turn n) / turn n + 1)%nat).
  { rewrite E at 1. apply Nat.div_add. lia. }
  assert (M : (length e mod turn n = (length e - turn n) mod turn n)%nat).
  { rewrite E at 1. apply Nat.mod_add. lia. }
  rewrite D in C. rewrite D, M.
  assert (SM : (length e - turn n < turn n)%nat -> ((length e - turn n) mod turn n = length e - turn n)%nat)
    by apply Nat.mod_small.
  pose proof (Nat.div_small_iff (length e - turn n) (turn n) ltac:(lia)) as DS.
  set (J := ((length e - turn n) / turn n)%nat) in *. set (r := ((length e - turn n) mod turn n)%nat) in *.
  destruct ((start_buf_size / 2 <? r / n * n)%nat && (p <? r mod n)%nat). { f_equal. lia. }
  destruct (Nat.ltb_spec p r) as [P|P]. { f_equal. lia. }
  destruct (Nat.ltb_spec 0 (J + 1)); [|lia].
  destruct (Nat.ltb_spec 0 J) as [J0|J0].
  - f_equal. nia.
  - replace (J + 1 - 1)%nat with 0%nat by lia. cbn [Nat.mul Nat.add]. apply C; lia.
Qed.

Lemma div_sub_mul a b n : (0 < n)%nat -> (b * n <= a)%nat -> (a / n = b + (a - b * n) / n)%nat.
Proof.
  intros N L. replace a with ((a - b * n) + b * n)%nat at 1 by lia. rewrite Nat.div_add by lia. lia.
Qed.

Lemma mod_add_self i k : (0 < k)%nat -> ((k + i) mod k = i mod k)%nat.
Proof. intros K. replace (k + i)%nat with (i + 1 * k)%nat by lia. apply Nat.mod_add. lia. Qed.

Lemma seq_add k c : forall b, seq (k + b) c = map (Nat.add k) (seq b c).
Proof. induction c as [|c IH]; intros b; cbn [seq map]; auto. f_equal. rewrite <- IH. f_equal. lia. Qed.

(** All fills. *)
Lemma fills n old : (0 < n)%nat -> (2 * n <= start_buf_size)%nat ->
  forall m e B fuel, length e = m -> (0 < length e)%nat -> length B = start_buf_size ->
  let L := Nat.min start_buf_size (length e) in
  firstn L B = firstn L e -> (2 * length e + 1 <= fuel)%nat ->
  exists s', scan_loop fuel (split_fixed n) (mkScan B 0 L (skipn L e) false old) =
      (map (fun i => mkTok (sub e (i * n) n) (length old) ((i mod (start_buf_size / n)) * n)) (seq 0 (length e / n)),
       Ok tt, s') /\
    sc_old s' = old /\ length (sc_buf s') = start_buf_size /\
    forall p, (p < turn n)%nat -> nth p (sc_buf s') 0 = final_byte n B e p.
Proof.
  intros N NS m. induction m as [m IH] using lt_wf_ind. intros e B fuel EM L0 LB L PE F.
  pose proof (turn_bounds n N NS) as (T1 & T2 & T3). pose proof start_le_max as SM.
  destruct (Nat.le_gt_cases (length e) start_buf_size) as [C|C].
  - assert (EL : L = length e) by (unfold L; lia). rewrite EL in *. rewrite skipn_all. rewrite firstn_all in PE.
    apply last_fill; auto; try lia. pose proof (Nat.div_le_upper_bound (length e) n (length e) ltac:(lia)) as X.
    assert (length e / n <= length e)%nat by (apply X; nia). lia.
  - assert (EL : L = start_buf_size) by (unfold L; lia). rewrite EL in *. clear L EL.
    set (K := (start_buf_size / n)%nat) in *. assert (KT : (K * n = turn n)%nat) by reflexivity.
    assert (K1 : (1 <= K)%nat) by nia.
    set (r := (start_buf_size - turn n)%nat).
    set (rest := skipn start_buf_size e).
    assert (LR : length rest = (length e - start_buf_size)%nat) by apply skipn_length.
    replace fuel with (K + S (fuel - K - 1))%nat by nia.
    rewrite emit_many by lia. cbn [Nat.add scan_loop]. rewrite KT.
    rewrite step_short by (clear - N NS T1 T2 T3 LB SM; lia).
    assert (SH : shift (mkScan B (turn n) start_buf_size rest false old) =
      mkScan (copy_into B 0 start_buf_size (sub B (turn n) r)) 0 r rest false old).
    { unfold shift. cbn [sc_start sc_end sc_buf sc_rest sc_eof sc_old]. rewrite LB, Nat.eqb_refl.
      destruct (Nat.ltb_spec 0 (turn n)); [|lia]. reflexivity. }
    rewrite SH. clear SH. set (B1 := copy_into B 0 start_buf_size (sub B (turn n) r)).
    assert (LB1 : length B1 = start_buf_size) by (unfold B1; rewrite copy_into_length; lia).
    assert (N1 : forall p, nth p B1 0 = if (p <? r)%nat then nth (turn n + p) B 0 else nth p B 0).
    { intros p. unfold B1. rewrite nth_front by (rewrite ?sub_length; lia). rewrite sub_length by lia.
      destruct (Nat.ltb_spec p r); auto. now apply nth_sub. }
    clearbody B1.
    set (e' := skipn (turn n) e). assert (LE' : length e' = (length e - turn n)%nat) by apply skipn_length.
    set (c := Nat.min (turn n) (length rest)).
    assert (RD : read (mkScan B1 0 r rest false old) =
      mkScan (copy_into B1 r (r + c) (firstn c rest)) 0 (r + c) (skipn c rest) false old).
    { unfold read. cbn [sc_rest sc_buf sc_end sc_start sc_eof sc_old]. rewrite LB1.
      replace (Nat.min (start_buf_size - r) (length rest)) with c by (unfold c, r; lia).
      destruct rest as [|x t] eqn:ER; [simpl in LR; lia|reflexivity]. }
    rewrite RD. clear RD. set (B2 := copy_into B1 r (r + c) (firstn c rest)).
    assert (C1 : (r + c <= start_buf_size)%nat) by (unfold r, c; lia).
    assert (CR : (c <= length rest)%nat) by (unfold c; lia).
    assert (LB2 : length B2 = start_buf_size) by (unfold B2; rewrite copy_into_length; lia).
    assert (BE : forall i, (i < start_buf_size)%nat -> nth i B 0 = nth i e 0).
    { intros i Hi. now apply (nth_same_prefix B e start_buf_size). }
    assert (N2 : forall p, (p < r + c)%nat -> nth p B2 0 = nth (turn n + p) e 0).
    { intros p Hp. destruct (Nat.lt_ge_cases p r) as [Pr|Pr].
      - unfold B2. rewrite nth_copy_into_out by lia. rewrite N1.
        destruct (Nat.ltb_spec p r); [|lia]. apply BE. unfold r in *. lia.
      - unfold B2. rewrite nth_copy_into_in; [|clear - C1 LB1; lia..|rewrite firstn_length; clear - CR; lia|clear - Pr Hp; lia].
        assert (X : nth (p - r) (firstn c rest) 0 = nth (p - r) rest 0).
        { change (firstn c rest) with (sub rest 0 c). rewrite nth_sub by lia. reflexivity. }
        rewrite X. unfold rest. rewrite nth_behind. f_equal. unfold r in *. lia. }
    assert (N3 : forall p, (r + c <= p)%nat -> (p < start_buf_size)%nat -> nth p B2 0 = nth p e 0).
    { intros p Hp Hp2. unfold B2. rewrite nth_copy_into_out by lia. rewrite N1.
      destruct (Nat.ltb_spec p r); [lia|]. now apply BE. }
    clearbody B2.
    assert (EL : Nat.min start_buf_size (length e') = (r + c)%nat) by (unfold r, c; lia).
    destruct (IH (length e')) with (e := e') (B := B2) (fuel := (fuel - K - 1)%nat) as (s' & E & SO & SL & SF);
      auto; try lia.
    { rewrite EL. apply (nth_ext _ _ 0 0). { rewrite !firstn_length. lia. }
      intros p Hp. rewrite firstn_length in Hp. 
      change (firstn (r + c) B2) with (sub B2 0 (r + c)). change (firstn (r + c) e') with (sub e' 0 (r + c)).
      rewrite !nth_sub by lia. cbn [Nat.add]. rewrite N2 by lia. unfold e'. now rewrite nth_behind. }
    { rewrite LE'. assert (K <= turn n)%nat by (rewrite <- KT; clear - N; nia). clear - F H C T1 T3 K1. lia. }
    rewrite EL in E. assert (ER : skipn (r + c) e' = skipn c rest).
    { unfold e', rest. rewrite !skipn_skipn. f_equal. unfold r. lia. }
    rewrite ER in E. rewrite E. exists s'. split; [|split; [auto|split; [auto|]]].
    + f_equal. f_equal. rewrite (div_sub_mul (length e) K n) by lia. rewrite KT, <- LE'.
      rewrite seq_app, map_app. f_equal.
      * apply map_ext_in. intros i Ii. apply in_seq in Ii. rewrite Nat.mod_small by lia. f_equal.
        apply (sub_same_prefix B e start_buf_size); auto. nia.
      * cbn [Nat.add]. 
        assert (SS : seq K (length e' / n) = map (Nat.add K) (seq 0 (length e' / n))).
        { rewrite <- (seq_add K). f_equal. lia. }
        rewrite SS, map_map. apply map_ext. intros i. rewrite mod_add_self by lia.
        unfold e'. rewrite sub_skipn. f_equal. f_equal. nia.
    + intros p P. rewrite SF by auto. apply final_byte_next; try lia.
      intros J1 Hp. rewrite <- LE' in Hp. apply N3; lia.
Qed.

(** The scanner hands out the whole records in order; record [i] lies in the buffer
    behind the [i mod (4096 / n)] records before it, and in the end shows what the
    buffer holds there. *)
Definition shown_in_the_end (n : nat) (d : bytes) (i : nat) : bytes :=
  map (final_byte n [] d) (seq ((i mod (start_buf_size / n)) * n) n).

Theorem scan_fixed_final n d : (0 < n)%nat -> (2 * n <= start_buf_size)%nat ->
  scan_fixed n d = Ok (map (fun i => (sub d (i * n) n, shown_in_the_end n d i)) (seq 0 (length d / n))).
Proof.
  intros N NS. pose proof (turn_bounds n N NS) as (T1 & T2 & T3).
  unfold scan_fixed, scan. replace (2 * length d + 2)%nat with (S (2 * length d + 1)) by lia.
  cbn [scan_loop].
  assert (ST : scan_step (split_fixed n) (mkScan [] 0 0 d false []) =
    More (read (mkScan (zeros start_buf_size) 0 0 d false [[]]))).
  { unfold scan_step. cbn [sc_start sc_end sc_eof sc_buf sc_rest sc_old].
    change ((0 <? 0)%nat || false) with false. cbv iota.
    unfold grow, shift. cbn [sc_start sc_end sc_eof sc_buf sc_rest sc_old length].
    change ((0 <? 0)%nat && ((0 =? 0)%nat || (0 / 2 <? 0)%nat)) with false. cbv iota.
    cbn [sc_start sc_end sc_eof sc_buf sc_rest sc_old length Nat.eqb].
    destruct (Nat.leb_spec max_token_size 0) as [X|_]; [pose proof max_pos; lia|].
    replace (Nat.min start_buf_size max_token_size) with start_buf_size by (pose proof start_le_max; lia).
    reflexivity. }
  rewrite ST. clear ST. destruct (Nat.eq_dec (length d) 0) as [D0|D0].
  - destruct d; [|discriminate]. rewrite Nat.div_small by (simpl; lia). unfold read. cbn [sc_rest length Nat.mul Nat.add].
    cbn [scan_loop]. unfold scan_step. cbn [sc_start sc_end sc_eof sc_buf sc_rest sc_old].
    change ((0 <? 0)%nat || true) with true. cbv iota.
    set (s2 := mkScan _ _ _ _ _ _). assert (W2 : window s2 = []) by (unfold window, s2, sub; apply firstn_O).
    unfold split_fixed. rewrite W2. destruct (Nat.ltb_spec (length (@nil Z)) n); [reflexivity|simpl in *; lia].
  - set (L := Nat.min start_buf_size (length d)).
    assert (RD : read (mkScan (zeros start_buf_size) 0 0 d false [[]]) =
      mkScan (copy_into (zeros start_buf_size) 0 L (firstn L d)) 0 L (skipn L d) false [[]]).
    { unfold read. cbn [sc_rest sc_buf sc_end sc_start sc_eof sc_old]. rewrite zeros_length, Nat.sub_0_r.
      destruct d; [simpl in D0; lia|reflexivity]. }
    rewrite RD. clear RD. set (B := copy_into _ _ _ _).
    assert (LF : length (firstn L d) = L) by (rewrite firstn_length; unfold L; lia).
    assert (LL : (L <= start_buf_size)%nat) by (unfold L; lia).
    assert (LB : length B = start_buf_size) by (unfold B; rewrite copy_into_length; rewrite ?zeros_length; lia).
    assert (NB : forall p, nth p B 0 = if (p <? L)%nat then nth p (firstn L d) 0 else nth p (zeros start_buf_size) 0).
    { intros p. unfold B. rewrite nth_front by (rewrite ?zeros_length; lia). now rewrite LF. }
    destruct (fills n [[]] N NS (length d) d B (2 * length d + 1)) as (s' & E & SO & SL & SF); auto; try lia.
    { fold L. apply (nth_ext _ _ 0 0). { rewrite LF, firstn_length. lia. }
      intros p Hp. rewrite firstn_length in Hp. change (firstn L B) with (sub B 0 L). rewrite nth_sub by lia.
      cbn [Nat.add]. rewrite NB. destruct (Nat.ltb_spec p L); [reflexivity|lia]. }
    fold L in E. rewrite E. cbn [bind]. f_equal. rewrite map_map. apply map_ext_in. intros i Ii. apply in_seq in Ii.
    cbn [tok_bytes]. f_equal. unfold observe. cbn [tok_bytes tok_buf tok_off length]. rewrite SO. cbn [List.app nth].
    assert (IB : (i * n + n <= length d)%nat).
    { pose proof (Nat.mul_div_le (length d) n ltac:(lia)). nia. }
    rewrite sub_length by lia.
    set (K := (start_buf_size / n)%nat) in *.
    assert (K1 : (1 <= K)%nat) by (unfold turn in T3; fold K in T3; nia).
    pose proof (Nat.mod_upper_bound i K ltac:(lia)) as MU.
    assert (PT : ((i mod K) * n + n <= turn n)%nat) by (unfold turn; fold K; nia).
    unfold shown_in_the_end. fold K.
    apply (nth_ext _ _ 0 0). { rewrite sub_length by lia. now rewrite map_length, seq_length. }
    intros p Hp. rewrite sub_length in Hp by lia. rewrite nth_sub by auto. rewrite SF by lia.
    rewrite (nth_indep _ 0 (final_byte n [] d 0)) by (rewrite map_length, seq_length; auto).
    rewrite map_nth, seq_nth by auto.
    unfold final_byte. destruct ((start_buf_size / 2 <? _)%nat && _); auto.
    destruct (Nat.ltb_spec ((i mod K) * n + p) (length d mod turn n)) as [Q|Q]; auto.
    destruct (Nat.ltb_spec 0 (length d / turn n)) as [J|J]; auto.
    exfalso. assert (DT : (length d / turn n = 0)%nat) by (now apply Nat.le_0_r).
    apply Nat.div_small_iff in DT; [|lia]. rewrite Nat.mod_small in Q by auto.
    assert ((i mod K <= i)%nat) by (apply Nat.mod_le; lia). nia.
Qed.

(** ** In terms of records *)

Lemma between_unique K s a b : (0 < K)%nat -> (a mod K = s)%nat -> (b mod K = s)%nat -> (a < b + K)%nat -> (b < a + K)%nat -> a = b.
Proof.
  intros K0 A B L1 L2. pose proof (Nat.div_mod a K ltac:(lia)) as DA. pose proof (Nat.div_mod b K ltac:(lia)) as DB.
  rewrite A in DA. rewrite B in DB. assert (a / K = b / K)%nat by nia. congruence.
Qed.

Lemma file_parts n (d : bytes) : (0 < n)%nat -> (2 * n <= start_buf_size)%nat ->
  let K := (start_buf_size / n)%nat in let cnt := (length d / n)%nat in
  (0 < K)%nat /\
  (length d mod turn n / n = cnt mod K)%nat /\ (length d mod turn n mod n = length d mod n)%nat /\
  (length d mod turn n = cnt mod K * n + length d mod n)%nat /\
  (cnt = length d / turn n * K + cnt mod K)%nat.
Proof.
  intros N NS K cnt. pose proof (turn_bounds n N NS) as (T1 & T2 & T3).
  assert (K1 : (0 < K)%nat) by (unfold turn in T3; fold K in T3; nia).
  pose proof (Nat.div_mod (length d) n ltac:(lia)) as DN. fold cnt in DN.
  pose proof (Nat.mod_upper_bound (length d) n ltac:(lia)) as RN. set (R := (length d mod n)%nat) in *.
  pose proof (Nat.div_mod cnt K ltac:(lia)) as DC.
  pose proof (Nat.mod_upper_bound cnt K ltac:(lia)) as RC. set (c := (cnt mod K)%nat) in *. set (J := (cnt / K)%nat) in *.
  assert (CT : (c * n + R < turn n)%nat) by (unfold turn; fold K; nia).
  assert (E : (length d = J * turn n + (c * n + R))%nat) by (unfold turn; fold K; nia).
  assert (M : (length d mod turn n = c * n + R)%nat).
  { symmetry. apply (Nat.mod_unique _ _ J); [auto|]. lia. }
  assert (D : (length d / turn n = J)%nat).
  { symmetry. apply (Nat.div_unique _ _ _ (c * n + R)); [auto|]. lia. }
  rewrite M, D. split; [auto|]. split; [|split; [|split; [reflexivity|lia]]].
  - symmetry. apply (Nat.div_unique _ _ _ R); [auto|]. lia.
  - symmetry. apply (Nat.mod_unique _ _ c); [auto|]. lia.
Qed.

(** A place in the buffer, compared with the end of the data. *)
Lemma place_first (s n p R : nat) : (s * n + p < R)%nat -> (R < n)%nat -> s = 0%nat.
Proof. intros A B. destruct s; auto. cbn in A. lia. Qed.

Lemma place_before (s c n p R : nat) : (s * n + p < c * n + R)%nat -> (R < n)%nat -> (s <= c)%nat.
Proof. intros A B. destruct (Nat.le_gt_cases s c); auto. assert (c * n + n <= s * n)%nat by nia. lia. Qed.

Lemma place_behind (s c n p R : nat) : (c * n + R <= s * n + p)%nat -> (p < n)%nat -> (c <= s)%nat.
Proof. intros A B. destruct (Nat.le_gt_cases c s); auto. assert (s * n + n <= c * n)%nat by nia. lia. Qed.

(** The last record at place [s], out of [J * K + c] records with [K] places. *)
Lemma last_place K J c s j : (s < K)%nat -> (c < K)%nat -> (j mod K = s)%nat -> (j < J * K + c)%nat -> (J * K + c <= j + K)%nat ->
  ((s < c)%nat -> j = (J * K + s)%nat) /\ ((c <= s)%nat -> (0 < J)%nat -> j = ((J - 1) * K + s)%nat).
Proof.
  intros SK CK M A B.
  assert (X : forall a, ((s + a * K) mod K = s)%nat) by (intros a; rewrite Nat.mod_add by lia; now apply Nat.mod_small).
  split; intros C.
  - apply (between_unique K s); auto; try lia. rewrite Nat.add_comm. apply X.
  - intros J0. assert (JK : (J * K = (J - 1) * K + K)%nat) by nia.
    apply (between_unique K s); auto; try lia. rewrite Nat.add_comm. apply X.
Qed.

(** Record [i] in the end shows record [j], the last of the records that shared its
    place in the buffer; an incomplete record at the end covers its first bytes if it
    was put to the same place, or moved to the front. *)
Lemma shown_nth n d i j p : (0 < n)%nat -> (2 * n <= start_buf_size)%nat -> (p < n)%nat ->
  let K := (start_buf_size / n)%nat in
  let cnt := (length d / n)%nat in
  let c := (cnt mod K)%nat in
  (i < cnt)%nat -> (j < cnt)%nat -> (j mod K = i mod K)%nat -> (cnt <= j + K)%nat ->
  nth p (shown_in_the_end n d i) 0 =
  if (p <? length d mod n)%nat && ((i mod K =? c)%nat || ((i mod K =? 0)%nat && (start_buf_size / 2 <? c * n)%nat))
  then nth (cnt * n + p) d 0 else nth (j * n + p) d 0.
Proof.
  intros N NS P K cnt c I1 J1 SJ LJ. destruct (file_parts n d N NS) as (K0 & P1 & P2 & P3 & P4).
  fold K cnt in K0, P1, P2, P3, P4. fold c in P1, P3, P4.
  unfold shown_in_the_end. fold K.
  rewrite (nth_indep _ 0 (final_byte n [] d 0)) by (rewrite map_length, seq_length; auto).
  rewrite map_nth, seq_nth by auto.
  unfold final_byte. rewrite P1, P2, P3. unfold turn in *. fold K in P4 |- *.
  pose proof (Nat.mod_upper_bound i K ltac:(clear - K0; lia)) as SK.
  pose proof (Nat.mod_upper_bound (length d) n ltac:(clear - N; lia)) as RN.
  pose proof (Nat.mod_upper_bound cnt K ltac:(clear - K0; lia)) as CK. fold c in CK.
  assert (SI : (i < K)%nat -> (i mod K = i)%nat) by apply Nat.mod_small.
  clear P1 P2 P3.
  set (s := (i mod K)%nat) in *. set (R := (length d mod n)%nat) in *. set (J := (length d / (K * n))%nat) in *.
  set (h := (start_buf_size / 2)%nat). clearbody s R J K c h cnt.
  rewrite P4 in J1, LJ.
  destruct (last_place K J c s j SK CK SJ J1 LJ) as [JA JB].
  assert (J0 : (c <= s)%nat -> (0 < J)%nat).
  { intros C. destruct J; [exfalso|lia]. cbn in P4. assert (i < K)%nat by lia. specialize (SI H). lia. }
  assert (EC : ((J * K + c) * n = J * (K * n) + c * n)%nat) by (now rewrite Nat.mul_add_distr_r, Nat.mul_assoc).
  assert (ES : ((J * K + s) * n = J * (K * n) + s * n)%nat) by (now rewrite Nat.mul_add_distr_r, Nat.mul_assoc).
  assert (ET : (((J - 1) * K + s) * n = (J - 1) * (K * n) + s * n)%nat) by (now rewrite Nat.mul_add_distr_r, Nat.mul_assoc).
  assert (EE : (cnt * n = J * (K * n) + c * n)%nat) by (rewrite P4; exact EC).
  rewrite EE.
  destruct ((h <? c * n)%nat && (s * n + p <? R)%nat) eqn:A.
  - apply andb_prop in A as [H A]. rewrite H. apply Nat.ltb_lt in A.
    pose proof (place_first s n p R A RN) as S0. rewrite S0 in *. rewrite Nat.mul_0_l in *. cbn [Nat.add] in A |- *.
    destruct (Nat.ltb_spec p R); [|lia]. cbn [Nat.eqb andb]. now rewrite orb_true_r.
  - destruct (Nat.ltb_spec (s * n + p) (c * n + R)) as [Q|Q].
    + destruct (Nat.eqb_spec s c) as [SC|SC].
      * subst s. destruct (Nat.ltb_spec p R); [|lia]. cbn [andb orb]. f_equal. lia.
      * pose proof (place_before s c n p R Q RN) as SL.
        assert (X : (p <? R)%nat && (false || ((s =? 0)%nat && (h <? c * n)%nat)) = false).
        { destruct (Nat.eqb_spec s 0) as [S0|]; cbn [orb andb]; [|apply andb_false_r].
          rewrite S0, Nat.mul_0_l in A. cbn [Nat.add] in A. rewrite andb_comm. exact A. }
        rewrite X. rewrite JA by lia. f_equal. lia.
    + pose proof (place_behind s c n p R Q P) as SC.
      assert (X : (p <? R)%nat && ((s =? c)%nat || ((s =? 0)%nat && (h <? c * n)%nat)) = false).
      { destruct (Nat.eqb_spec s c) as [S1|S1]; cbn [orb].
        - subst s. destruct (Nat.ltb_spec p R); auto. lia.
        - destruct (Nat.eqb_spec s 0) as [S0|]; cbn [andb]; [|apply andb_false_r].
          exfalso. lia. }
      rewrite X. destruct (Nat.ltb_spec 0 J); [|specialize (J0 SC); lia].
      rewrite JB by auto. f_equal. lia.
Qed.

Lemma shown_length n d i : length (shown_in_the_end n d i) = n.
Proof. unfold shown_in_the_end. now rewrite map_length, seq_length. Qed.

Lemma last_in_place n (d : bytes) i : (0 < n)%nat -> (2 * n <= start_buf_size)%nat -> (i < length d / n)%nat ->
  exists j, (j < length d / n)%nat /\ (j mod (start_buf_size / n) = i mod (start_buf_size / n))%nat /\
    (length d / n <= j + start_buf_size / n)%nat.
Proof.
  intros N NS I. destruct (file_parts n d N NS) as (K0 & _).
  set (K := (start_buf_size / n)%nat) in *. set (cnt := (length d / n)%nat) in *.
  (* the largest i + t * K below cnt *)
  set (t := ((cnt - 1 - i) / K)%nat).
  pose proof (Nat.div_mod (cnt - 1 - i) K ltac:(lia)) as D. fold t in D.
  pose proof (Nat.mod_upper_bound (cnt - 1 - i) K ltac:(lia)) as U.
  exists (i + t * K)%nat. split; [nia|]. split; [apply Nat.mod_add; lia|nia].
Qed.

Lemma shown_whole n d i j : (0 < n)%nat -> (2 * n <= start_buf_size)%nat -> (length d mod n = 0)%nat ->
  let K := (start_buf_size / n)%nat in
  (i < length d / n)%nat -> (j < length d / n)%nat -> (j mod K = i mod K)%nat -> (length d / n <= j + K)%nat ->
  shown_in_the_end n d i = sub d (j * n) n.
Proof.
  intros N NS W K I J S L.
  assert (JL : (j * n + n <= length d)%nat). { pose proof (Nat.mul_div_le (length d) n ltac:(lia)). nia. }
  apply (nth_ext _ _ 0 0). { now rewrite shown_length, sub_length. }
  intros p P. rewrite shown_length in P. rewrite (shown_nth n d i j p); auto. rewrite W.
  destruct (Nat.ltb_spec p 0); [lia|]. cbn [andb]. now rewrite nth_sub.
Qed.
