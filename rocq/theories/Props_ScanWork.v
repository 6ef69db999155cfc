(** C139: splitting a card file into records takes work linear in its length. *)

From Verif Require Import Base Enums Chunks Scanner P_Scanner RawTypes RawCard P_RawCard Infer DriverCard ScanWork.

(** Split functions that ask for more data only if they need it: the token that
    comes later is longer than what they were shown. *)
Definition asks_only_if_needed (split : split_func) : Prop :=
  forall w r b n, split w false = SMore -> split (w ++ r) b = STok n -> (length w < n)%nat.

(** The sizes a buffer can have. *)
Definition buffer_size (l : nat) : Prop :=
  l = 0%nat \/ exists k, (k <= 4)%nat /\ l = (start_buf_size * 2 ^ k)%nat.

Lemma max_is : max_token_size = (start_buf_size * 16)%nat.
Proof. pose proof start_eq. pose proof max_eq. lia. Qed.

Lemma buffer_sizes l : buffer_size l ->
  l = 0%nat \/ l = start_buf_size \/ l = (start_buf_size * 2)%nat \/ l = (start_buf_size * 4)%nat \/
  l = (start_buf_size * 8)%nat \/ l = (start_buf_size * 16)%nat.
Proof.
  intros [->|(k & K & ->)]; [auto|].
  destruct k as [|[|[|[|[|k]]]]]; [| | | | |lia]; cbn [Nat.pow]; lia.
Qed.

Lemma buffer_size_next l : buffer_size l -> l <> 0%nat -> (l < max_token_size)%nat ->
  Nat.min (l * 2) max_token_size = (l * 2)%nat /\ buffer_size (l * 2)%nat.
Proof.
  intros [->|(k & K & ->)] N M; [congruence|]. rewrite max_is in *. pose proof start_pos.
  assert (k <> 4)%nat by (intros ->; cbn [Nat.pow] in M; lia).
  split.
  - destruct k as [|[|[|[|k]]]]; [| | | |lia]; cbn [Nat.pow]; lia.
  - right. exists (S k). split; [lia|]. cbn [Nat.pow]. lia.
Qed.

Lemma shift_same_size s : inv s -> length (sc_buf (shift s)) = length (sc_buf s).
Proof.
  intros I. pose proof (window_length s I). destruct I as (A & B & C & D). unfold shift.
  destruct (_ && _); [|reflexivity]. cbn [sc_buf]. apply copy_into_length; lia.
Qed.

Lemma read_same_size s : inv s -> length (sc_buf (read s)) = length (sc_buf s).
Proof.
  intros (A & B & C & D). unfold read. destruct (sc_rest s) as [|x r] eqn:R; [reflexivity|].
  rewrite <- R. cbn [sc_buf]. apply copy_into_length; try (rewrite firstn_length); lia.
Qed.

(** What was allocated when the buffer has this size. *)
Definition spent (l : nat) : nat := if (l =? 0)%nat then 0 else 2 * l - start_buf_size.

Lemma shift_cost s : inv s -> calls (shift_work s) = 0%nat /\ allocated (shift_work s) = 0%nat /\
  ((copied (shift_work s) = 0%nat /\ shift s = s) \/
   (copied (shift_work s) = (sc_end s - sc_start s)%nat /\ (0 < sc_start s)%nat /\ sc_start (shift s) = 0%nat)).
Proof.
  intros I. unfold shift_work, shift. destruct ((0 <? sc_start s)%nat && _) eqn:Q; cbn [calls copied allocated no_work sc_start]; [|auto].
  apply andb_true_iff in Q as [Q _]. apply Nat.ltb_lt in Q. split; [reflexivity|]. split; [reflexivity|]. right. auto.
Qed.

Lemma grow_cost s s' : inv s -> (sc_end s = length (sc_buf s) -> sc_start s = 0%nat) -> buffer_size (length (sc_buf s)) ->
  grow s = Some s' ->
  calls (grow_work s) = 0%nat /\ (sc_start s = 0%nat -> sc_start s' = 0%nat) /\ buffer_size (length (sc_buf s')) /\
  ((copied (grow_work s) = 0%nat /\ allocated (grow_work s) = 0%nat /\ length (sc_buf s') = length (sc_buf s)) \/
   (copied (grow_work s) = length (sc_buf s) /\ length (sc_buf s) = (sc_end s - sc_start s)%nat /\
    allocated (grow_work s) = length (sc_buf s') /\
    (length (sc_buf s) < max_token_size)%nat /\
    ((length (sc_buf s) = 0 /\ length (sc_buf s') = start_buf_size)%nat \/
     (length (sc_buf s) <> 0 /\ length (sc_buf s') = length (sc_buf s) * 2)%nat))).
Proof.
  intros I Z B G. pose proof (window_length s I) as W. destruct I as (I1 & I2 & I3 & I4). unfold grow_work. rewrite G. unfold grow in G.
  destruct (Nat.eqb_spec (sc_end s) (length (sc_buf s))) as [F0|F0].
  - destruct (Nat.leb_spec max_token_size (length (sc_buf s))) as [X|X]; [discriminate|].
    specialize (Z F0). pose proof start_le_max. pose proof start_pos.
    set (size := Nat.min _ max_token_size) in G.
    assert (S : (length (sc_buf s) = 0 /\ size = start_buf_size)%nat \/ (length (sc_buf s) <> 0 /\ size = length (sc_buf s) * 2)%nat).
    { unfold size. destruct (Nat.eqb_spec (length (sc_buf s)) 0) as [Y|Y]; [left; lia|right].
      destruct (buffer_size_next _ B Y X) as [Q _]. auto. }
    assert (S' : (length (sc_buf s) <= size)%nat) by lia.
    assert (BS : buffer_size size).
    { destruct S as [[_ ->]|[Y ->]]; [right; exists 0%nat; cbn [Nat.pow]; lia|]. now apply buffer_size_next. }
    clearbody size. injection G as <-. cbn [sc_buf sc_start calls copied allocated].
    assert (L : length (copy_into (zeros size) 0 size (window s)) = size) by (rewrite copy_into_length; rewrite ?zeros_length; lia).
    rewrite L. split; [reflexivity|]. split; [auto|]. split; [exact BS|]. right. repeat split; auto; lia.
  - injection G as <-. cbn [no_work calls copied allocated]. split; [reflexivity|]. split; [auto|]. split; [exact B|]. auto.
Qed.

Lemma read_start s : sc_start (read s) = sc_start s.
Proof. unfold read. destruct (sc_rest s); reflexivity. Qed.

Lemma read_window s : inv s -> exists x, window (read s) = window s ++ x.
Proof.
  intros (A & B & C & D). unfold read. destruct (sc_rest s) as [|x r] eqn:R; [exists []; now rewrite app_nil_r|].
  rewrite <- R. set (n := Nat.min _ _). assert (N1 : (n <= length (sc_rest s))%nat) by (unfold n; lia).
  assert (N2 : (sc_end s + n <= length (sc_buf s))%nat) by (unfold n; lia). clearbody n.
  exists (firstn n (sc_rest s)). unfold window. cbn [sc_buf sc_start sc_end]. apply sub_extend; rewrite ?firstn_length; lia.
Qed.

Lemma read_rest s : (length (sc_rest (read s)) <= length (sc_rest s))%nat.
Proof. unfold read. destruct (sc_rest s) as [|x r] eqn:R; [cbn; lia|]. rewrite <- R. cbn [sc_rest]. rewrite skipn_length. lia. Qed.

Section Bounds.
Variable split : split_func.
Hypothesis ST : stable split.
Hypothesis AN : asks_only_if_needed split.

(** Each byte is read once, moved to the front once (charged to the record it is part
    of: [p] is what was charged to the next record already) and, as buffers double,
    twice while the buffer grows. *)
Lemma loop_bound : forall fuel s p N,
  inv s -> buffer_size (length (sc_buf s)) -> (length (window s ++ sc_rest s) <= N)%nat -> (p <= length (window s))%nat ->
  (p = 0%nat \/ (sc_start s = 0%nat /\ forall r b n, split (window s ++ r) b = STok n -> (p <= n)%nat)) ->
  let w := fst (loop_work fuel split s) in
  let l := length (sc_buf s) in
  (calls w <= fuel)%nat /\
  (copied w + p + l <= length (window s ++ sc_rest s) + length (sc_rest s) + Nat.max l (2 * N))%nat /\
  (allocated w + spent l <= 31 * start_buf_size)%nat /\
  (allocated w + spent l <= Nat.max (spent l) (start_buf_size + 4 * N))%nat.
Proof.
  assert (SP0 : forall l, buffer_size l -> (spent l <= 31 * start_buf_size)%nat).
  { intros l B. apply buffer_sizes in B. unfold spent. destruct (Nat.eqb_spec l 0); lia. }
  induction fuel as [|fuel IH]; intros s p N I B LN P PC; cbv zeta.
  { cbn [loop_work fst no_work calls copied allocated]. pose proof (SP0 _ B). rewrite app_length. split; [lia|]. split; [lia|]. lia. }
  pose proof (window_length s I) as W. pose proof (SP0 _ B) as SPB.
  (* rounds that stop *)
  assert (STOP : forall w, (calls w <= 1)%nat -> copied w = 0%nat -> allocated w = 0%nat ->
    (calls w <= S fuel)%nat /\
    (copied w + p + length (sc_buf s) <= length (window s ++ sc_rest s) + length (sc_rest s) + Nat.max (length (sc_buf s)) (2 * N))%nat /\
    (allocated w + spent (length (sc_buf s)) <= 31 * start_buf_size)%nat /\
    (allocated w + spent (length (sc_buf s)) <= Nat.max (spent (length (sc_buf s))) (start_buf_size + 4 * N))%nat).
  { intros w C1 C2 C3. rewrite C2, C3, app_length. split; [lia|]. split; [lia|]. lia. }
  (* rounds that ask for more *)
  assert (FILL : forall asked : work, (calls asked <= 1)%nat -> copied asked = 0%nat -> allocated asked = 0%nat ->
    (window s = [] \/ split (window s) false = SMore) -> sc_eof s = false ->
    let r := and_then asked (and_then (shift_work s) (and_then (grow_work (shift s))
               match grow (shift s) with None => no_work | Some s' => read_work s' end)) in
    let w := match grow (shift s) with None => r | Some s' => and_then r (fst (loop_work fuel split (read s'))) end in
    (calls w <= S fuel)%nat /\
    (copied w + p + length (sc_buf s) <= length (window s ++ sc_rest s) + length (sc_rest s) + Nat.max (length (sc_buf s)) (2 * N))%nat /\
    (allocated w + spent (length (sc_buf s)) <= 31 * start_buf_size)%nat /\
    (allocated w + spent (length (sc_buf s)) <= Nat.max (spent (length (sc_buf s))) (start_buf_size + 4 * N))%nat).
  { intros asked A1 A2 A3 SP E. cbv zeta.
    destruct (shift_spec s I E) as (I1 & W1 & R1 & E1 & Z1 & L1).
    destruct (shift_cost s I) as (S1 & S2 & S3). pose proof (shift_same_size s I) as SS.
    (* what is charged to the next record after the shift *)
    assert (CH : exists p', (copied (shift_work s) + p = p')%nat /\ (p' <= length (window s))%nat /\
      (p' = 0%nat \/ (sc_start (shift s) = 0%nat /\ forall r b n, split (window s ++ r) b = STok n -> (p' <= n)%nat))).
    { destruct S3 as [[C0 Q]|(C0 & Q1 & Q2)].
      - exists p. rewrite C0, Q. auto.
      - assert (p = 0%nat) as -> by (destruct PC as [PC|[PC _]]; lia). exists (length (window s)). split; [lia|]. split; [lia|].
        destruct SP as [SP|SP]; [left; now rewrite SP|]. right. split; [exact Q2|]. intros r b n T. pose proof (AN _ _ _ _ SP T). lia. }
    destruct CH as (p' & C1 & C2 & C3).
    destruct (grow (shift s)) as [s'|] eqn:G.
    - assert (B1 : buffer_size (length (sc_buf (shift s)))) by now rewrite SS.
      destruct (grow_cost (shift s) s' I1 Z1 B1 G) as (G1 & G2 & G3 & G4).
      destruct (grow_spec _ _ I1 E1 G) as (I2 & W2 & R2 & E2 & F2 & L2).
      destruct (read_spec s' I2 E2 F2) as (I3 & W3 & M3).
      destruct (read_window s' I2) as (x & WX). pose proof (read_rest s') as RR.
      assert (D : window (read s') ++ sc_rest (read s') = window s ++ sc_rest s) by (rewrite W3, W2, R2, W1, R1; reflexivity).
      pose proof (read_same_size s' I2) as RS.
      specialize (IH (read s') p' N I3). rewrite RS, D in IH. specialize (IH G3 LN).
      destruct IH as (H1 & H2 & H3 & H4).
      + rewrite WX, W2, W1, app_length. lia.
      + destruct C3 as [C3|[C3 C4]]; [now left|]. right. rewrite read_start. split; [auto|]. intros r b n T.
        rewrite WX, W2, W1, <- app_assoc in T. eauto.
      + set (w' := fst (loop_work fuel split (read s'))) in *. clearbody w'.
        unfold and_then, read_work. cbn [calls copied allocated]. rewrite A2, A3, S1, S2, G1. rewrite R2, R1 in *.
        assert (WD : (length (window s) <= N)%nat) by (rewrite app_length in LN; clear - LN; lia).
        set (d := length (window s ++ sc_rest s)) in *. clearbody d.
        rewrite SS in G4. pose proof start_pos as SPOS.
        split; [clear - A1 H1; lia|].
        clear - SPOS H1 H2 H3 H4 G4 C1 C2 A1 RR SS W L1 WD B LN R1 R2 SPB.
        destruct G4 as [(G5 & G6 & G7)|(G5 & G6 & G7 & G8 & G9)].
        * rewrite G5, G6. rewrite G7 in *. split; [lia|]. split; lia.
        * rewrite G5, G7. assert (LD : (length (sc_buf s) <= N)%nat) by (rewrite G6, L1, <- W; exact WD).
          destruct G9 as [[G9 G10]|[G9 G10]].
          -- rewrite G10 in *. rewrite G9 in *. unfold spent in *. cbn [Nat.eqb] in *. destruct (Nat.eqb_spec start_buf_size 0); [lia|]. split; [lia|]. split; lia.
          -- rewrite G10 in *. unfold spent in *. destruct (Nat.eqb_spec (length (sc_buf s)) 0); [lia|].
             destruct (Nat.eqb_spec (length (sc_buf s) * 2) 0); [lia|].
             assert (BL : (start_buf_size <= length (sc_buf s))%nat) by (apply buffer_sizes in B; clear - B n; lia). clear B. split; [lia|]. split; lia.
    - unfold grow_work. rewrite G. unfold and_then. cbn [no_work calls copied allocated]. rewrite A2, A3, S1, S2. rewrite app_length. split; [lia|]. split; [lia|]. lia. }
  cbn [loop_work]. unfold scan_step, round_work. cbv zeta.
  destruct ((sc_start s <? sc_end s)%nat || sc_eof s) eqn:ACT.
  - destruct (split (window s) (sc_eof s)) as [|n|e] eqn:SP.
    + destruct (sc_eof s) eqn:E.
      * cbn [fst]. apply STOP; cbn; lia.
      * specialize (FILL (mkWork 1 0 0) ltac:(cbn; lia) eq_refl eq_refl (or_intror SP) eq_refl). cbv zeta in FILL.
        destruct (grow (shift s)) as [s'|]; [|exact FILL].
        destruct (loop_work fuel split (read s')) as [w o]. exact FILL.
    + pose proof (st_tok _ ST _ _ _ SP) as T.
      set (s' := mkScan (sc_buf s) (sc_start s + n) (sc_end s) (sc_rest s) (sc_eof s) (sc_old s)).
      assert (W' : window s' = skipn n (window s)).
      { unfold window, s'. cbn [sc_buf sc_start sc_end]. unfold sub. rewrite skipn_firstn_comm, skipn_skipn. f_equal. lia. }
      assert (I' : inv s').
      { destruct I as (A & B' & C & D). unfold inv, s'. cbn [sc_buf sc_start sc_end sc_rest sc_eof].
        split; [lia|split; [lia|split; [lia|]]]. intros E. destruct (D E). split; auto. lia. }
      assert (PN : (p <= n)%nat).
      { destruct PC as [->|[_ PC]]; [lia|]. apply (PC [] (sc_eof s)). now rewrite app_nil_r. }
      assert (DL : length (window s' ++ sc_rest s') = (length (window s ++ sc_rest s) - n)%nat).
      { rewrite W', !app_length, skipn_length. cbn [sc_rest s']. unfold s'. cbn [sc_rest]. lia. }
      destruct (IH s' 0%nat N I') as (H1 & H2 & H3 & H4); [exact B|lia|lia|now left|].
      change (sc_rest s') with (sc_rest s) in *. change (sc_buf s') with (sc_buf s) in *.
      fold s'. destruct (loop_work fuel split s') as [w [[ts r] s'']]. cbn [fst] in *.
      unfold and_then. cbn [no_work calls copied allocated].
      assert (n <= length (window s ++ sc_rest s))%nat by (rewrite app_length; lia).
      rewrite DL in H2.
      split; [lia|]. split; [lia|]. split; [exact H3|exact H4].
    + cbn [fst]. apply STOP; cbn; lia.
  - apply orb_false_iff in ACT as [ACT E]. rewrite E.
    assert (WN : window s = []) by (apply Nat.ltb_ge in ACT; destruct (window s); auto; simpl in W; lia).
    specialize (FILL no_work ltac:(cbn; lia) eq_refl eq_refl (or_introl WN) E). cbv zeta in FILL.
    destruct (grow (shift s)) as [s'|]; [|exact FILL].
    destruct (loop_work fuel split (read s')) as [w o]. exact FILL.
Qed.

Lemma scan_bound data :
  let w := fst (scan_work split data) in
  (calls w <= 2 * length data + 2)%nat /\ (copied w <= 4 * length data)%nat /\
  (allocated w <= 31 * start_buf_size)%nat /\ (allocated w <= start_buf_size + 4 * length data)%nat.
Proof.
  cbv zeta. unfold scan_work. destruct (loop_bound (2 * length data + 2) (mkScan [] 0 0 data false []) 0 (length data)) as (A & B & C & D).
  - unfold inv. cbn. pose proof max_pos. repeat split; try lia; discriminate.
  - now left.
  - cbn. lia.
  - cbn. lia.
  - now left.
  - set (w := fst _) in *. clearbody w. cbn [sc_buf sc_rest window sub length] in *. unfold window, spent in *. cbn in B, C, D. cbn [Nat.eqb] in *.
    split; [exact A|]. split; [cbn in B; lia|]. split; lia.
Qed.
End Bounds.

Lemma card_asks : asks_only_if_needed scan_card_file.
Proof.
  intros w r b n. unfold scan_card_file. rewrite app_length. destruct (Nat.ltb_spec (length w) 5) as [L|L].
  - intros _. destruct (Nat.ltb_spec (length w + length r) 5) as [M|M].
    + destruct b; [destruct (_ =? _)%nat|]; discriminate.
    + destruct (_ <? _)%nat; [destruct b; discriminate|]. intros E. injection E as <-. lia.
  - destruct (Nat.ltb_spec (length w) (5 + Z.to_nat (be (sub w 3 2)))) as [K|K]; [|discriminate]. intros _.
    destruct (Nat.ltb_spec (length w + length r) 5) as [M|M]; [lia|].
    assert (E : sub (w ++ r) 3 2 = sub w 3 2).
    { unfold sub. rewrite skipn_prefix by lia. apply firstn_prefix_le. rewrite skipn_length. lia. }
    rewrite E. destruct (_ <? _)%nat; [destruct b; discriminate|]. intros T. injection T as <-. lia.
Qed.

Lemma fixed_asks k : asks_only_if_needed (split_fixed k).
Proof.
  intros w r b n. unfold split_fixed. destruct (Nat.ltb_spec (length w) k) as [L|L]; [|discriminate]. intros _.
  destruct (_ <? _)%nat; [discriminate|]. intros E. injection E as <-. exact L.
Qed.

(** What is counted is the scanner of the model. *)
Theorem C139_same_scanner : forall split d, snd (scan_work split d) = scan split d.
Proof.
  intros split d. unfold scan_work, scan. generalize (mkScan [] 0 0 d false []). generalize (2 * length d + 2)%nat as fuel.
  induction fuel as [|fuel IH]; intros s; [reflexivity|]. cbn [loop_work scan_loop]. destruct (scan_step split s) as [t s'|s'|r s'].
  - specialize (IH s'). destruct (loop_work fuel split s') as [w [[ts r] s'']]. cbn [snd] in *. now rewrite <- IH.
  - specialize (IH s'). destruct (loop_work fuel split s') as [w o]. exact IH.
  - reflexivity.
Qed.
Print Assumptions C139_same_scanner.

(** Splitting a card file, and splitting the content of an elementary file into records of any
    fixed size. *)
Theorem C139_scanners : forall split d, split = scan_card_file \/ (exists k, (0 < k)%nat /\ split = split_fixed k) ->
  let w := fst (scan_work split d) in
  Z.of_nat (calls w) <= 2 * Z.of_nat (length d) + 2 /\ Z.of_nat (copied w) <= 4 * Z.of_nat (length d) /\
  Z.of_nat (allocated w) <= 126976 /\ Z.of_nat (allocated w) <= 4096 + 4 * Z.of_nat (length d).
Proof.
  intros split d H. assert (X : stable split /\ asks_only_if_needed split).
  { destruct H as [->|(k & K & ->)]; [split; [exact scan_card_stable|exact card_asks]|].
    split; [now apply split_fixed_stable|apply fixed_asks]. }
  destruct X as [ST AN]. cbv zeta. destruct (scan_bound split ST AN d) as (A & B & C & D). pose proof start_eq. lia.
Qed.
Print Assumptions C139_scanners.

Definition contents_work (rs : list raw_record) : work := fold_right (fun r w => and_then (content_work r) w) no_work rs.

Lemma content_bound r : (calls (content_work r) <= 2 * length (rr_value r) + 2)%nat /\
  (copied (content_work r) <= 4 * length (rr_value r))%nat /\
  Z.of_nat (allocated (content_work r)) <= 4096 + 4 * Z.of_nat (length (rr_value r)).
Proof.
  assert (Z0 : (calls no_work <= 2 * length (rr_value r) + 2)%nat /\ (copied no_work <= 4 * length (rr_value r))%nat /\
    Z.of_nat (allocated no_work) <= 4096 + 4 * Z.of_nat (length (rr_value r))) by (cbn [no_work calls copied allocated]; lia).
  assert (K : forall k j, (0 < k)%nat -> let w := fst (scan_work (split_fixed k) (skipn j (rr_value r))) in
    (calls w <= 2 * length (rr_value r) + 2)%nat /\ (copied w <= 4 * length (rr_value r))%nat /\
    Z.of_nat (allocated w) <= 4096 + 4 * Z.of_nat (length (rr_value r))).
  { intros k j P. destruct (C139_scanners (split_fixed k) (skipn j (rr_value r))) as (A & B & _ & D); [right; eauto|].
    cbv zeta. rewrite skipn_length in *. lia. }
  unfold content_work. destruct (route _ _) as [[s|]|e|]; auto. destruct s; auto;
    first [apply (K 24%nat 0%nat) | apply (K 18%nat 2%nat) | apply (K 10%nat 2%nat)]; lia.
Qed.

(** All scanning for a card file, whether it can be read or not. *)
Theorem C139_cards : forall d, bytes_ok d ->
  Z.of_nat (calls (card_work d)) <= 4 * Z.of_nat (length d) + 2 /\
  Z.of_nat (copied (card_work d)) <= 8 * Z.of_nat (length d) /\
  Z.of_nat (allocated (card_work d)) <= 126976 + 824 * Z.of_nat (length d).
Proof.
  intros d B. destruct (C139_scanners scan_card_file d (or_introl eq_refl)) as (A1 & A2 & A3 & _).
  set (c := match unmarshal_raw_card_file d with Ok rs => contents_work rs | _ => no_work end).
  assert (S : (calls c <= 2 * length d)%nat /\ (copied c <= 4 * length d)%nat /\ Z.of_nat (allocated c) <= 824 * Z.of_nat (length d));
    [|change (card_work d) with (and_then (fst (scan_work scan_card_file d)) c); unfold and_then; cbn [calls copied allocated]; lia].
  unfold c. destruct (unmarshal_raw_card_file d) as [rs|e|] eqn:E; [|cbn [no_work calls copied allocated]; lia|cbn [no_work calls copied allocated]; lia].
  clear A1 A2 A3 c.
  apply raw_card_inv in E as (ts & T & -> & ->); [|exact B]. clear. unfold encs.
  induction ts as [|t ts IH]; [cbn; lia|]. cbn [map concat contents_work fold_right]. fold (contents_work (map expected ts)).
  rewrite app_length, enc_length. pose proof (content_bound (expected t)) as C. cbn [expected rr_value] in C.
  unfold and_then. cbn [calls copied allocated]. lia.
Qed.
Print Assumptions C139_cards.

(** Four records of 3000 bytes: each byte is read once, and 3288 bytes are moved to the
    front of the buffer of 4096 bytes; and a record without content that makes a scanner
    allocate its first buffer. *)
Example C139_example :
  let d := concat (repeat ([0x05; 0x0A; 0; 11; 179] ++ zeros 2995) 4) in
  length d = Z.to_nat 12000 /\ fst (scan_work scan_card_file d) = mkWork 8 (Z.to_nat 15288) (Z.to_nat 4096) /\
  allocated (content_work (expected (mkTlv 0x0502 0 []))) = Z.to_nat 4096.
Proof. cbv zeta. split; [vm_compute; reflexivity|]. split; vm_compute; reflexivity. Qed.
