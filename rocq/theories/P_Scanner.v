(** The scanner splits the stream independently of its buffering. *)

From Verif Require Import Base Chunks Scanner.

(** Split functions whose decision does not change when more data arrives. *)
Record stable (split : split_func) : Prop := {
  st_tok : forall w b n, split w b = STok n -> (1 <= n <= length w)%nat;
  st_ext : forall w n x b, split w false = STok n -> split (w ++ x) b = STok n;
  st_err : forall w e x b, split w false = SErr e -> split (w ++ x) b = SErr e }.

(** Splitting without any buffer, except for the limit on tokens. *)
Fixpoint ideal (fuel : nat) (split : split_func) (d : bytes) : list bytes * res unit :=
  match fuel with
  | O => ([], Panic)
  | S f =>
      match split (firstn max_token_size d) (length d <? max_token_size)%nat with
      | STok n => let r := ideal f split (skipn n d) in (firstn n d :: fst r, snd r)
      | SErr e => ([], Err e)
      | SMore => ([], if (length d <? max_token_size)%nat then Ok tt else Err ETooLong)
      end
  end.

Definition inv (s : scanner) : Prop :=
  (sc_start s <= sc_end s)%nat /\ (sc_end s <= length (sc_buf s))%nat /\
  (length (sc_buf s) <= max_token_size)%nat /\
  (sc_eof s = true -> sc_rest s = [] /\ (sc_end s - sc_start s < max_token_size)%nat).

Definition measure (s : scanner) : nat :=
  ((sc_end s - sc_start s) + 2 * length (sc_rest s) + if sc_eof s then 0 else 1)%nat.

Lemma max_pos : (0 < max_token_size)%nat.
Proof. unfold max_token_size. lia. Qed.

Lemma start_le_max : (start_buf_size <= max_token_size)%nat.
Proof. unfold start_buf_size, max_token_size. lia. Qed.

Lemma start_pos : (0 < start_buf_size)%nat.
Proof. unfold start_buf_size. lia. Qed.

Lemma start_eq : Z.of_nat start_buf_size = 4096.
Proof. reflexivity. Qed.

Lemma max_eq : Z.of_nat max_token_size = 65536.
Proof. reflexivity. Qed.

Global Opaque max_token_size start_buf_size.

Lemma window_length s : inv s -> length (window s) = (sc_end s - sc_start s)%nat.
Proof. intros (A & B & _). unfold window. apply sub_length. lia. Qed.

Lemma sub_copy_front b j w :
  (length w <= j)%nat -> (j <= length b)%nat -> sub (copy_into b 0 j w) 0 (length w) = w.
Proof.
  intros H J. unfold copy_into. rewrite Nat.sub_0_r, Nat.min_r by lia. cbn [firstn app Nat.add].
  rewrite firstn_all. apply sub_app_l. reflexivity.
Qed.

Lemma shift_spec s :
  inv s -> sc_eof s = false ->
  inv (shift s) /\ window (shift s) = window s /\ sc_rest (shift s) = sc_rest s /\
  sc_eof (shift s) = false /\
  (sc_end (shift s) = length (sc_buf (shift s)) -> sc_start (shift s) = 0%nat) /\
  (sc_end (shift s) - sc_start (shift s) = sc_end s - sc_start s)%nat.
Proof.
  intros I E. pose proof (window_length s I) as W. destruct I as (A & B & C & D).
  unfold shift. destruct ((0 <? sc_start s)%nat && _) eqn:Q.
  - assert (L : length (copy_into (sc_buf s) 0 (length (sc_buf s)) (window s)) = length (sc_buf s))
      by (apply copy_into_length; lia).
    split; [|split; [|split; [|split; [|split]]]]; cbn [sc_buf sc_start sc_end sc_rest sc_eof].
    + unfold inv. cbn [sc_buf sc_start sc_end sc_rest sc_eof]. rewrite L.
      split; [lia|split; [lia|split; [lia|]]]. congruence.
    + unfold window at 1. cbn [sc_buf sc_start sc_end].
      rewrite Nat.sub_0_r, <- W. apply sub_copy_front; lia.
    + reflexivity.
    + auto.
    + auto.
    + lia.
  - split; [unfold inv; tauto|]. repeat split; auto.
    intros F. destruct (sc_start s) as [|k] eqn:K; auto. exfalso.
    assert (Hk : (0 <? S k)%nat = true) by (apply Nat.ltb_lt; lia).
    rewrite Hk in Q. cbn [andb] in Q.
    apply orb_false_iff in Q as [Q _]. apply Nat.eqb_neq in Q. auto.
Qed.

Lemma grow_spec s s' :
  inv s -> sc_eof s = false -> grow s = Some s' ->
  inv s' /\ window s' = window s /\ sc_rest s' = sc_rest s /\ sc_eof s' = false /\
  (sc_end s' < length (sc_buf s'))%nat /\
  (sc_end s' - sc_start s' = sc_end s - sc_start s)%nat.
Proof.
  intros I E G. pose proof (window_length s I) as W. destruct I as (A & B & C & D).
  pose proof max_pos. pose proof start_le_max. pose proof start_pos.
  unfold grow in G. destruct (Nat.eqb_spec (sc_end s) (length (sc_buf s))) as [F|F].
  - destruct (Nat.leb_spec max_token_size (length (sc_buf s))); [discriminate|].
    injection G as <-.
    set (size := Nat.min _ max_token_size).
    assert (S : (length (sc_buf s) < size <= max_token_size)%nat).
    { unfold size. destruct (Nat.eqb_spec (length (sc_buf s)) 0); lia. }
    assert (L : length (copy_into (zeros size) 0 size (window s)) = size).
    { rewrite copy_into_length; rewrite ?zeros_length; lia. }
    clearbody size.
    split; [|split; [|split; [|split; [|split]]]]; cbn [sc_buf sc_start sc_end sc_rest sc_eof].
    + unfold inv. cbn [sc_buf sc_start sc_end sc_rest sc_eof]. rewrite L.
      split; [lia|split; [lia|split; [lia|]]]. congruence.
    + unfold window at 1. cbn [sc_buf sc_start sc_end].
      rewrite Nat.sub_0_r, <- W. apply sub_copy_front; rewrite ?zeros_length; lia.
    + reflexivity.
    + auto.
    + lia.
    + lia.
  - injection G as <-. split; [unfold inv; tauto|]. repeat split; auto. lia.
Qed.

Lemma sub_extend b i j k s :
  (i <= j)%nat -> (k <= length b)%nat -> length s = (k - j)%nat -> (j <= k)%nat ->
  sub (copy_into b j k s) i (k - i) = sub b i (j - i) ++ s.
Proof.
  intros. rewrite copy_into_eq by lia. unfold sub.
  assert (Hf : length (firstn j b) = j) by (rewrite firstn_length; lia).
  rewrite skipn_app, Hf. replace (i - j)%nat with 0%nat by lia. cbn [skipn].
  rewrite app_assoc, firstn_app.
  assert (L : length (skipn i (firstn j b) ++ s) = (k - i)%nat)
    by (rewrite app_length, skipn_length; lia).
  rewrite L, Nat.sub_diag, firstn_O, app_nil_r, firstn_all2 by lia.
  f_equal. apply skipn_firstn_comm.
Qed.

Lemma read_spec s :
  inv s -> sc_eof s = false -> (sc_end s < length (sc_buf s))%nat ->
  inv (read s) /\ window (read s) ++ sc_rest (read s) = window s ++ sc_rest s /\
  (measure (read s) < measure s)%nat.
Proof.
  intros I E F. pose proof (window_length s I) as W. destruct I as (A & B & C & D).
  unfold read. destruct (sc_rest s) as [|x r] eqn:R.
  - unfold inv, measure. cbn [sc_buf sc_start sc_end sc_rest sc_eof].
    split; [|split; [reflexivity|rewrite E, R; simpl; lia]].
    split; [lia|split; [lia|split; [lia|]]]. intros _. split; auto. lia.
  - rewrite <- R. set (n := Nat.min (length (sc_buf s) - sc_end s) (length (sc_rest s))).
    assert (N : (1 <= n)%nat) by (unfold n; rewrite R; simpl; lia).
    assert (N1 : (n <= length (sc_rest s))%nat) by (unfold n; lia).
    assert (N2 : (sc_end s + n <= length (sc_buf s))%nat) by (unfold n; lia).
    clearbody n.
    assert (L : length (copy_into (sc_buf s) (sc_end s) (sc_end s + n) (firstn n (sc_rest s)))
                = length (sc_buf s)) by (apply copy_into_length; lia).
    split; [|split].
    + unfold inv. cbn [sc_buf sc_start sc_end sc_rest sc_eof]. rewrite L.
      split; [lia|split; [lia|split; [lia|]]]. congruence.
    + unfold window. cbn [sc_buf sc_start sc_end sc_rest].
      rewrite sub_extend by (rewrite ?firstn_length; lia).
      rewrite <- app_assoc, firstn_skipn. reflexivity.
    + unfold measure. cbn [sc_buf sc_start sc_end sc_rest sc_eof].
      rewrite skipn_length, E. lia.
Qed.

Lemma firstn_prefix (w r : bytes) n :
  (length w <= n)%nat -> firstn n (w ++ r) = w ++ firstn (n - length w) r.
Proof. intros. rewrite firstn_app, firstn_all2 by lia. reflexivity. Qed.

Lemma skipn_prefix n (w r : bytes) : (n <= length w)%nat -> skipn n (w ++ r) = skipn n w ++ r.
Proof. intros. rewrite skipn_app. replace (n - length w)%nat with 0%nat by lia. reflexivity. Qed.

Lemma firstn_prefix_le n (w r : bytes) : (n <= length w)%nat -> firstn n (w ++ r) = firstn n w.
Proof.
  intros. rewrite firstn_app. replace (n - length w)%nat with 0%nat by lia.
  rewrite firstn_O. apply app_nil_r.
Qed.

Lemma scan_loop_spec split :
  stable split ->
  forall fuel s k,
  inv s -> (measure s < fuel)%nat -> (length (window s ++ sc_rest s) < k)%nat ->
  let r := scan_loop fuel split s in
  (map tok_bytes (fst (fst r)), snd (fst r)) = ideal k split (window s ++ sc_rest s).
Proof.
  intros ST. induction fuel as [|fuel IH]; intros s k I M K; [lia|].
  destruct k as [|k]; [lia|]. pose proof (window_length s I) as W.
  assert (WL : (length (window s) <= max_token_size)%nat).
  { destruct I as (? & ? & ? & ?). lia. }
  (* the filling branch *)
  assert (FILL : (window s = [] \/ split (window s) false = SMore) -> sc_eof s = false ->
    forall st, st = match grow (shift s) with
                    | None => Done (Err ETooLong) s | Some s' => More (read s') end ->
    let r := match st with
             | Emit t s' => match scan_loop fuel split s' with (ts, r, s'') => (t :: ts, r, s'') end
             | More s' => scan_loop fuel split s'
             | Done r s' => ([], r, s') end in
    (map tok_bytes (fst (fst r)), snd (fst r)) = ideal (S k) split (window s ++ sc_rest s)).
  { intros SP E st ->. destruct (shift_spec s I E) as (I1 & W1 & R1 & E1 & Z1 & L1).
    destruct (grow (shift s)) as [s'|] eqn:G.
    - destruct (grow_spec _ _ I1 E1 G) as (I2 & W2 & R2 & E2 & F2 & L2).
      destruct (read_spec s' I2 E2 F2) as (I3 & W3 & M3). cbv zeta.
      assert (D : window (read s') ++ sc_rest (read s') = window s ++ sc_rest s)
        by (rewrite W3, W2, R2, W1, R1; reflexivity).
      rewrite <- D. apply IH; auto.
      + unfold measure in *. rewrite E2, R2, R1, L2, L1 in M3. rewrite E in M. lia.
      + rewrite D. auto.
    - (* the buffer is full and at its maximal size *)
      unfold grow in G. destruct (Nat.eqb_spec (sc_end (shift s)) (length (sc_buf (shift s)))) as [F|];
        [|discriminate].
      destruct (Nat.leb_spec max_token_size (length (sc_buf (shift s)))) as [X|]; [|discriminate].
      specialize (Z1 F). assert (WE : length (window s) = max_token_size).
      { rewrite W, <- L1, Z1. destruct I1 as (_ & _ & ? & _). lia. }
      pose proof max_pos. destruct SP as [SP|SP]; [rewrite SP in WE; simpl in WE; lia|].
      cbn [fst snd map ideal]. rewrite firstn_prefix by lia.
      rewrite WE, Nat.sub_diag, firstn_O, app_nil_r.
      destruct (Nat.ltb_spec (length (window s ++ sc_rest s)) max_token_size) as [Y|Y].
      { rewrite app_length in Y. lia. }
      rewrite SP. reflexivity. }
  cbv zeta. cbn [scan_loop]. unfold scan_step.
  destruct ((sc_start s <? sc_end s)%nat || sc_eof s) eqn:ACT.
  - destruct (split (window s) (sc_eof s)) as [|n|e] eqn:SP.
    + destruct (sc_eof s) eqn:E.
      * destruct I as (_ & _ & _ & D). destruct (D E) as [R L]. rewrite R, app_nil_r.
        cbn [fst snd map ideal]. rewrite firstn_all2 by lia.
        destruct (Nat.ltb_spec (length (window s)) max_token_size); [|lia].
        rewrite SP. reflexivity.
      * apply FILL; auto.
    + pose proof (st_tok _ ST _ _ _ SP) as N.
      assert (Q : split (firstn max_token_size (window s ++ sc_rest s))
                    (length (window s ++ sc_rest s) <? max_token_size)%nat = STok n).
      { destruct (sc_eof s) eqn:E.
        - destruct I as (_ & _ & _ & D). destruct (D E) as [R L]. rewrite R, app_nil_r.
          rewrite firstn_all2 by lia.
          destruct (Nat.ltb_spec (length (window s)) max_token_size); [|lia]. auto.
        - rewrite firstn_prefix by lia. apply (st_ext _ ST). auto. }
      set (s' := mkScan (sc_buf s) (sc_start s + n) (sc_end s) (sc_rest s) (sc_eof s) (sc_old s)).
      assert (W' : window s' = skipn n (window s)).
      { unfold window, s'. cbn [sc_buf sc_start sc_end]. unfold sub.
        rewrite skipn_firstn_comm, skipn_skipn. f_equal. lia. }
      assert (I' : inv s').
      { destruct I as (A & B & C & D). unfold inv, s'. cbn [sc_buf sc_start sc_end sc_rest sc_eof].
        split; [lia|split; [lia|split; [lia|]]]. intros E. destruct (D E). split; auto. lia. }
      assert (D' : window s' ++ sc_rest s' = skipn n (window s ++ sc_rest s)).
      { rewrite W', skipn_prefix by lia. reflexivity. }
      specialize (IH s' k I').
      destruct (scan_loop fuel split s') as [[ts r] s''] eqn:SL.
      cbn [fst snd map ideal tok_bytes]. rewrite Q.
      rewrite firstn_prefix_le by lia. rewrite <- D', <- IH.
      * reflexivity.
      * unfold measure, s'. cbn [sc_start sc_end sc_rest sc_eof]. unfold measure in M. lia.
      * rewrite D', skipn_length. rewrite app_length in *. lia.
    + cbn [fst snd map ideal]. destruct (sc_eof s) eqn:E.
      * destruct I as (_ & _ & _ & D). destruct (D E) as [R L]. rewrite R, app_nil_r.
        rewrite firstn_all2 by lia.
        destruct (Nat.ltb_spec (length (window s)) max_token_size); [|lia].
        rewrite SP. reflexivity.
      * rewrite firstn_prefix by lia. rewrite (st_err _ ST _ _ _ _ SP). reflexivity.
  - apply orb_false_iff in ACT as [ACT E]. rewrite E. apply FILL; auto.
    left. apply Nat.ltb_ge in ACT. destruct (window s); auto. simpl in W. lia.
Qed.

(** The tokens and the outcome of a scan are those of unbuffered splitting. *)
Theorem scan_spec split data :
  stable split ->
  let r := scan split data in
  (map tok_bytes (fst (fst r)), snd (fst r)) = ideal (S (length data)) split data.
Proof.
  intros ST. unfold scan.
  change (ideal (S (length data)) split data)
    with (ideal (S (length data)) split (window (mkScan [] 0 0 data false []) ++ data)).
  apply (scan_loop_spec split ST _ (mkScan [] 0 0 data false [])).
  - unfold inv. cbn. pose proof max_pos. repeat split; try lia; discriminate.
  - unfold measure. cbn. lia.
  - cbn. lia.
Qed.

(** ** Fixed-size records *)

Lemma split_fixed_stable n : (0 < n)%nat -> stable (split_fixed n).
Proof.
  intros N. constructor; unfold split_fixed.
  - intros w b m. destruct (Nat.ltb_spec (length w) n); [discriminate|].
    intros E. injection E as <-. lia.
  - intros w m x b. destruct (Nat.ltb_spec (length w) n); [discriminate|].
    intros E. injection E as <-. rewrite app_length.
    destruct (Nat.ltb_spec (length w + length x) n); [lia|]. reflexivity.
  - intros w e x b. destruct (_ <? _)%nat; discriminate.
Qed.

Lemma ideal_fixed n : (0 < n <= max_token_size)%nat ->
  forall k d, (length d < k)%nat -> ideal k (split_fixed n) d = (chunks n d, Ok tt).
Proof.
  intros N. induction k as [|k IH]; intros d L; [lia|].
  cbn [ideal]. unfold split_fixed at 1.
  destruct (Nat.ltb_spec (length (firstn max_token_size d)) n) as [H|H].
  - rewrite firstn_length in H.
    rewrite chunks_nil by lia.
    destruct (Nat.ltb_spec (length d) max_token_size); [reflexivity|lia].
  - rewrite firstn_length in H. rewrite IH by (rewrite skipn_length; lia).
    rewrite (chunks_cons n d) by lia. reflexivity.
Qed.

Lemma scan_fixed_spec n data :
  (0 < n <= max_token_size)%nat ->
  exists ts s, scan (split_fixed n) data = (ts, Ok tt, s) /\ map tok_bytes ts = chunks n data.
Proof.
  intros N. pose proof (scan_spec (split_fixed n) data) as S.
  rewrite ideal_fixed in S by (auto; lia).
  destruct (scan (split_fixed n) data) as [[ts r] s]. cbn [fst snd] in S.
  specialize (S (split_fixed_stable n (proj1 N))). injection S as S1 ->.
  exists ts, s. auto.
Qed.

(** What is scanned: exactly the full records, for every length. *)
Lemma scan_fixed_chunks n data :
  (0 < n <= max_token_size)%nat ->
  exists l, scan_fixed n data = Ok l /\ map fst l = chunks n data.
Proof.
  intros N. destruct (scan_fixed_spec n data N) as (ts & s & E & M).
  unfold scan_fixed. rewrite E. cbn [bind]. eexists. split; [reflexivity|].
  rewrite map_map. rewrite <- M. reflexivity.
Qed.

(** ** What the tokens show in the end *)

Lemma scan_step_emit n B k L rest eof old :
  (0 < n)%nat -> (k + n <= L)%nat -> (L <= length B)%nat ->
  scan_step (split_fixed n) (mkScan B k L rest eof old) =
  Emit (mkTok (sub B k n) (length old) k) (mkScan B (k + n) L rest eof old).
Proof.
  intros N K LB. unfold scan_step. cbn [sc_start sc_end sc_eof sc_buf sc_rest sc_old].
  destruct (Nat.ltb_spec k L); [|lia]. cbn [orb].
  assert (W : length (window (mkScan B k L rest eof old)) = (L - k)%nat).
  { unfold window. cbn [sc_start sc_end sc_buf]. apply sub_length. lia. }
  unfold split_fixed at 1. rewrite W.
  destruct (Nat.ltb_spec (L - k) n); [lia|]. do 2 f_equal.
  unfold window. cbn [sc_start sc_end sc_buf]. unfold sub. rewrite firstn_firstn, Nat.min_l by lia.
  reflexivity.
Qed.

Lemma scan_tail n B old : (0 < n)%nat -> (n <= length B)%nat -> length B = start_buf_size ->
  forall m k L fuel, (m = L - k)%nat -> (k <= L)%nat -> (L <= length B)%nat ->
  ((L - k) mod n = 0 \/ (L < length B /\ L - (L - k) mod n <= length B / 2))%nat ->
  (m + 2 <= fuel)%nat ->
  exists ts s', scan_loop fuel (split_fixed n) (mkScan B k L [] false old) = (ts, Ok tt, s') /\
    sc_buf s' = B /\ sc_old s' = old /\
    Forall (fun t => tok_buf t = length old /\ tok_bytes t = sub B (tok_off t) n /\
                     length (tok_bytes t) = n) ts.
Proof.
  intros N NB LB m. induction m as [m IH] using lt_wf_ind. intros k L fuel Em KL LL C F.
  destruct fuel as [|fuel]; [lia|].
  destruct (Nat.lt_ge_cases (L - k) n) as [H|H].
  - (* the remainder is too short for a record *)
    cbn [scan_loop]. rewrite Nat.mod_small in C by auto.
    set (s := mkScan B k L [] false old).
    assert (W : length (window s) = (L - k)%nat).
    { unfold window, s. cbn [sc_start sc_end sc_buf]. apply sub_length. lia. }
    assert (ST : scan_step (split_fixed n) s =
                 match grow (shift s) with None => Done (Err ETooLong) s | Some s' => More (read s') end).
    { unfold scan_step. change (sc_eof s) with false. unfold split_fixed at 1. rewrite W.
      destruct (Nat.ltb_spec (L - k) n); [|lia]. destruct ((_ <? _)%nat || false); reflexivity. }
    rewrite ST.
    assert (I : inv s).
    { unfold inv, s. cbn [sc_start sc_end sc_buf sc_eof]. rewrite LB.
      pose proof start_le_max. repeat split; try lia; discriminate. }
    destruct (shift_spec s I eq_refl) as (I1 & W1 & R1 & E1 & Z1 & L1).
    (* the buffer does not change *)
    assert (SB : sc_buf (shift s) = B /\ sc_old (shift s) = old).
    { unfold shift. destruct ((0 <? sc_start s)%nat && _) eqn:Q; [|auto].
      cbn [sc_buf sc_old]. split; [|reflexivity].
      destruct C as [C|[C1 C2]].
      - assert (WN : window s = []) by (destruct (window s); auto; simpl in W; lia).
        rewrite WN. unfold copy_into. rewrite Nat.min_r by (simpl; lia). reflexivity.
      - exfalso. unfold s in Q. cbn [sc_start sc_end sc_buf] in Q.
        apply andb_true_iff in Q as [_ Q]. apply orb_true_iff in Q as [Q|Q].
        + apply Nat.eqb_eq in Q. lia.
        + apply Nat.ltb_lt in Q. lia. }
    destruct SB as [SB SO].
    assert (NF : (sc_end (shift s) =? length (sc_buf (shift s)))%nat = false).
    { apply Nat.eqb_neq. intros F1. specialize (Z1 F1). rewrite Z1, F1, SB in L1.
      unfold s in L1. cbn [sc_start sc_end] in L1.
      (* the window would fill the buffer *) lia. }
    assert (G : grow (shift s) = Some (shift s)) by (unfold grow; rewrite NF; reflexivity).
    rewrite G. unfold read. rewrite R1. change (sc_rest s) with (@nil Z).
    destruct fuel as [|fuel]; [lia|]. cbn [scan_loop]. unfold scan_step.
    cbn [sc_eof sc_start sc_end sc_buf sc_rest sc_old]. rewrite orb_true_r.
    set (s2 := mkScan _ _ _ _ _ _).
    assert (W2 : window s2 = window s) by exact W1.
    unfold split_fixed at 1. rewrite W2, W.
    destruct (Nat.ltb_spec (L - k) n); [|lia].
    eexists _, _. split; [reflexivity|]. cbn [sc_buf sc_old]. auto.
  - cbn [scan_loop]. rewrite scan_step_emit by lia.
    destruct (IH (L - (k + n))%nat) with (k := (k + n)%nat) (L := L) (fuel := fuel)
      as (ts & s' & E & EB & EO & FT); try lia.
    { replace (L - (k + n))%nat with (L - k - n)%nat by lia.
      assert (M : ((L - k) mod n = (L - k - n) mod n)%nat).
      { replace (L - k)%nat with (L - k - n + 1 * n)%nat at 1 by lia.
        apply Nat.mod_add. lia. }
      rewrite <- M. exact C. }
    rewrite E. eexists _, _. split; [reflexivity|]. split; [auto|]. split; [auto|].
    constructor; auto. cbn [tok_buf tok_bytes tok_off]. repeat split; auto. apply sub_length. lia.
Qed.

Lemma mod_part a n : (n <> 0)%nat -> (a - a mod n = a / n * n)%nat.
Proof.
  intros N. pose proof (Nat.div_mod a n N) as D. revert D.
  generalize (a / n)%nat (a mod n)%nat. intros q r ->. rewrite (Nat.mul_comm q n). lia.
Qed.

(** A file that fits the initial buffer and leaves no remainder, or only uses its
    first half, is shown unchanged. *)
Theorem scan_fixed_unchanged n data :
  (0 < n <= start_buf_size)%nat -> (length data <= start_buf_size)%nat ->
  (length data mod n = 0 \/
   (length data < start_buf_size /\ length data / n * n <= start_buf_size / 2))%nat ->
  scan_fixed n data = Ok (map (fun c => (c, c)) (chunks n data)).
Proof.
  intros N L C.
  destruct (scan_fixed_spec n data) as (ts & s & E & M).
  { pose proof start_le_max. lia. }
  assert (Q : Forall (fun t => observe s t = tok_bytes t) ts).
  { unfold scan in E. replace (2 * length data + 2)%nat with (S (2 * length data + 1)) in E by lia.
    cbn [scan_loop] in E.
    unfold scan_step in E at 1. cbn [sc_start sc_end sc_eof sc_buf sc_rest sc_old] in E.
    change ((0 <? 0)%nat || false) with false in E. cbv iota in E.
    unfold grow, shift in E. cbn [sc_start sc_end sc_eof sc_buf sc_rest sc_old length] in E.
    change ((0 <? 0)%nat && ((0 =? 0)%nat || (0 / 2 <? 0)%nat)) with false in E. cbv iota in E.
    cbn [sc_start sc_end sc_eof sc_buf sc_rest sc_old length Nat.eqb] in E.
    destruct (Nat.leb_spec max_token_size 0) as [X|_]; [pose proof max_pos; lia|].
    replace (Nat.min start_buf_size max_token_size) with start_buf_size in E
      by (pose proof start_le_max; lia).
    assert (ZZ : copy_into (zeros start_buf_size) 0 start_buf_size (window (mkScan [] 0 0 data false []))
                = zeros start_buf_size).
    { unfold window. cbn [sc_buf sc_start sc_end]. change (sub [] 0 (0 - 0)) with (@nil Z).
      unfold copy_into. rewrite Nat.min_r by (simpl; lia). reflexivity. }
    rewrite ZZ in E. clear ZZ. unfold read in E. cbn [sc_start sc_end sc_eof sc_buf sc_rest sc_old] in E.
    destruct data as [|x data'] eqn:D.
    - change (2 * length (@nil Z) + 1)%nat with 1%nat in E. cbn [scan_loop] in E.
      unfold scan_step in E. cbn [sc_start sc_end sc_eof sc_buf sc_rest sc_old] in E.
      change ((0 <? 0)%nat || true) with true in E. cbv iota in E.
      set (s2 := mkScan _ _ _ _ _ _) in E.
      assert (W2 : window s2 = []) by reflexivity.
      unfold split_fixed in E. rewrite W2 in E. destruct (Nat.ltb_spec (length (@nil Z)) n); [|simpl in *; lia].
      injection E as <- _. constructor.
    - rewrite <- D in *. rewrite zeros_length in E.
      rewrite Nat.sub_0_r in E. cbn [Nat.add] in E.
      rewrite Nat.min_r in E by lia. rewrite firstn_all, skipn_all in E.
      change ([] ++ [[]]) with [@nil Z] in E.
      set (B := copy_into (zeros start_buf_size) 0 (length data) data) in E.
      assert (LB : length B = start_buf_size).
      { unfold B. rewrite copy_into_length; rewrite ?zeros_length; lia. }
      assert (DM : (length data - length data mod n = length data / n * n)%nat).
      { apply mod_part. lia. }
      destruct (scan_tail n B [[]]) with (m := length data) (k := 0%nat) (L := length data)
        (fuel := (2 * length data + 1)%nat) as (ts' & s' & E' & EB & EO & F); try lia.
      { rewrite Nat.sub_0_r. destruct C as [C|[C1 C2]]; [left; auto|right].
        split; [lia|]. rewrite LB, DM. auto. }
      { rewrite D. simpl. lia. }
      rewrite E' in E. injection E as <- <-.
      eapply Forall_impl; [|exact F]. intros t (T1 & T2 & T3). unfold observe.
      rewrite EO, EB, T1, T3. cbn [length app nth]. auto. }
  unfold scan_fixed. rewrite E. cbn [bind]. f_equal. rewrite <- M, map_map.
  apply map_ext_in. intros t I. rewrite Forall_forall in Q. rewrite (Q t I). reflexivity.
Qed.
