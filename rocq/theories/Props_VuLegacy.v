(** Properties C85 to C89: the exported day reader. *)

From Verif Require Import Base Enums Chunks DDScalar Utf8 DDString DDRecord RawTypes Scanner Vu VuLegacy
  P_Scanner P_Scalar P_String P_Utf8 Field P_Basic P_Record P_Vu P_VuRecord Props_Layout Props_Overview
  P_OverviewWrite Props_VuActivities P_VuLegacy.

(** ** C85: the first generation *)

(** The bytes the reader asks for: counts of one byte, and no card insertions. *)
Definition day1_bytes date odometer (changes places conditions : list bytes) signature : bytes :=
  date ++ odometer ++ [0] ++ [Z.of_nat (length changes)] ++ concat changes ++
  [Z.of_nat (length places)] ++ concat places ++ [Z.of_nat (length conditions)] ++ concat conditions ++ signature.

Definition day1_parts (date odometer : bytes) (changes places conditions : list bytes) (signature : bytes) : Prop :=
  length date = 4%nat /\ length odometer = 3%nat /\ Forall (fun b => length b = 2%nat) changes /\
  Forall (fun b => length b = 10%nat) places /\ Forall (fun b => length b = 5%nat) conditions /\
  length signature = 128%nat.

(** A place whose entry type and country are the codes themselves. *)
Definition is_cast_place (b : bytes) (p : vu_place) : Prop :=
  exists time entry country region odometer,
    b = time ++ [entry] ++ [country] ++ [region] ++ odometer /\ length time = 4%nat /\ length odometer = 3%nat /\
    p = mkVP (Some (mkTs (num time) 0)) entry country [region] (num odometer).

Lemma cast_place_iff b p : length b = 10%nat -> (unmarshal_day_place b = Ok p <-> is_cast_place b p).
Proof.
  intros L. do 10 (destruct b as [|? b]; [discriminate L|]). destruct b; [|discriminate L].
  unfold unmarshal_day_place. cbn. split.
  - intros E. apply Ok_inj in E. subst p. exists [z; z0; z1; z2], z3, z4, z5, [z6; z7; z8]. repeat split; reflexivity.
  - intros (t & e & c & g & o & E & Lt & Lo & ->).
    do 4 (destruct t as [|? t]; [discriminate Lt|]). destruct t; [|discriminate Lt].
    do 3 (destruct o as [|? o]; [discriminate Lo|]). destruct o; [|discriminate Lo].
    injection E as <- <- <- <- <- <- <- <- <- <-. reflexivity.
Qed.

Lemma day1_reads cm : reads (day1_body cm) (fun a x r =>
  exists date odo k changes places conditions signature cs ps ks,
    a = date ++ odo ++ [k] ++ [Z.of_nat (length changes)] ++ concat changes ++
        [Z.of_nat (length places)] ++ concat places ++ [Z.of_nat (length conditions)] ++ concat conditions ++ signature /\
    day1_parts date odo changes places conditions signature /\ k = 0 /\
    Forall2 (fun b c => unmarshal_activity_change b = Ok c) changes cs /\
    Forall2 (fun b c => unmarshal_day_place b = Ok c) places ps /\
    Forall2 (fun b c => unmarshal_spec_cond b = Ok c) conditions ks /\
    x = mkDay GENERATION_1 VERSION_UNSPECIFIED (Some (mkTs (num date) 0)) (num odo) [] cs ps [] ks [] []
          (Some signature) None).
Proof.
  eapply reads_weaken.
  - unfold day1_body.
    eapply (reads_bind read_vu_time); [eapply reads_taking; [exact take_vu_time|discriminate]|intros t].
    eapply (reads_bind (item unmarshal_odometer 3)); [apply reads_item|intros odo].
    eapply (reads_bind (parse_iw_data cm)); [apply reads_iw_data|intros iw].
    eapply (reads_bind (counted parse_change)); [apply reads_counted; exact (reads_item unmarshal_activity_change 2)|intros cs].
    eapply (reads_bind (counted parse_place)); [apply reads_counted; exact (reads_item unmarshal_day_place 10)|intros ps].
    eapply (reads_bind (counted parse_condition)); [apply reads_counted; exact (reads_item unmarshal_spec_cond 5)|intros ks].
    eapply (reads_bind (fun d o => read_bytes d o 128)); [eapply reads_taking; [exact (take_bytes 128)|discriminate]|intros sig].
    apply reads_ok.
  - intros a x r B. cbv beta. split.
    + intros (date & a1 & t & -> & [L1 ->] & odo & a2 & o & -> & [L2 E2] & kk & a3 & iw & -> & (k & -> & -> & C) &
        a4 & a5 & cs & -> & (changes & -> & F1 & G1) & a6 & a7 & ps & -> & (places & -> & F2 & G2) &
        a8 & a9 & ks & -> & (conditions & -> & F3 & G3) & sg & a10 & s & -> & [L3 ->] & -> & ->).
      apply odometer_is in E2. subst o.
      exists date, odo, k, changes, places, conditions, sg, cs, ps, ks.
      split; [rewrite app_nil_r, <- !app_assoc; reflexivity|]. split; [unfold day1_parts; auto 10|].
      split; [|auto].
      destruct C as [C|C]; [exact C|]. rewrite !app_length, L3 in C. lia.
    + intros (date & odo & k & changes & places & conditions & sg & cs & ps & ks & -> &
        (L1 & L2 & F1 & F2 & F3 & L3) & -> & G1 & G2 & G3 & ->).
      eexists date, _, _. split; [reflexivity|]. split; [split; [exact L1|reflexivity]|].
      eexists odo, _, _. split; [reflexivity|].
      split; [split; [exact L2|unfold unmarshal_odometer; rewrite L2; cbn [Nat.eqb guard bind]; reflexivity]|].
      eexists [0], _, []. split; [reflexivity|]. split; [exists 0; auto|].
      eexists ([Z.of_nat (length changes)] ++ concat changes), _, cs. split; [rewrite <- app_assoc; reflexivity|].
      split; [exists changes; auto|].
      eexists ([Z.of_nat (length places)] ++ concat places), _, ps. split; [rewrite <- app_assoc; reflexivity|].
      split; [exists places; auto|].
      eexists ([Z.of_nat (length conditions)] ++ concat conditions), _, ks. split; [rewrite <- app_assoc; reflexivity|].
      split; [exists conditions; auto|].
      exists sg, [], sg. split; [now rewrite app_nil_r|]. split; [auto|].
      split; [reflexivity|]. rewrite !num_be. reflexivity.
Qed.

Lemma ok_after {X} (f : bytes -> nat -> res (X * nat)) d start x n :
  (let* (x, o) := f d start in Ok (x, (o - start)%nat)) = Ok (x, n) <->
  exists o, f d start = Ok (x, o) /\ n = (o - start)%nat.
Proof.
  split.
  - intros H. apply bind_ok in H as ([y o] & E & H). apply Ok_inj in H. injection H as -> <-. eauto.
  - intros (o & -> & ->). reflexivity.
Qed.

Lemma changes_total changes : Forall (fun b => length b = 2%nat) changes -> bytes_ok (concat changes) ->
  exists cs, Forall2 (fun b c => unmarshal_activity_change b = Ok c) changes cs.
Proof.
  induction 1 as [|b bs L F IH]; intros B; [eauto|]. cbn in B. apply bytes_ok_app in B as [Bb B].
  destruct (IH B) as (cs & E). destruct (change_readable b Bb L) as (c & Ec). eauto.
Qed.

Lemma places_total places : Forall (fun b => length b = 10%nat) places ->
  exists cs, Forall2 (fun b c => unmarshal_day_place b = Ok c) places cs.
Proof.
  induction 1 as [|b bs L F (cs & IH)]; [eauto|].
  assert (T : exists c, unmarshal_day_place b = Ok c).
  { do 10 (destruct b as [|? b]; [discriminate L|]). destruct b; [|discriminate L]. eexists. reflexivity. }
  destruct T as (c & E). eauto.
Qed.

Lemma conditions_total conditions : Forall (fun b => length b = 5%nat) conditions ->
  exists cs, Forall2 (fun b c => unmarshal_spec_cond b = Ok c) conditions cs.
Proof.
  induction 1 as [|b bs L F (cs & IH)]; [eauto|]. destruct (condition_readable b L) as (c & E). eauto.
Qed.

(** A first-generation day is accepted exactly if it has this layout. *)
Theorem C85_first_generation_accepted :
  forall cm before s, bytes_ok s ->
  ((exists x n, unmarshal_day cm (before ++ s) (length before) 1 = Ok (x, n)) <->
   exists date odometer changes places conditions signature rest,
     s = day1_bytes date odometer changes places conditions signature ++ rest /\
     day1_parts date odometer changes places conditions signature).
Proof.
  intros cm p s B. unfold unmarshal_day. cbn [Z.eqb Pos.eqb]. rewrite day1_eq. split.
  - intros (x & n & H). apply ok_after in H as (o & H & _). apply day1_reads in H; [|exact B].
    destruct H as (a & r & -> & _ & date & odo & k & changes & places & conditions & sg & cs & ps & ks & -> & P & -> & _).
    exists date, odo, changes, places, conditions, sg, r. split; [|exact P]. unfold day1_bytes. reflexivity.
  - intros (date & odo & changes & places & conditions & sg & r & -> & P).
    destruct P as (L1 & L2 & F1 & F2 & F3 & L3).
    assert (Bc : bytes_ok (concat changes)).
    { unfold day1_bytes in B. rewrite !bytes_ok_app in B. tauto. }
    destruct (changes_total _ F1 Bc) as (cs & G1). destruct (places_total _ F2) as (ps & G2).
    destruct (conditions_total _ F3) as (ks & G3).
    eexists _, _. apply ok_after. eexists. split; [|reflexivity]. apply day1_reads; [exact B|].
    eexists _, r. split; [reflexivity|]. split; [reflexivity|].
    exists date, odo, 0, changes, places, conditions, sg, cs, ps, ks. unfold day1_bytes, day1_parts.
    split; [reflexivity|]. auto 12.
Qed.
Print Assumptions C85_first_generation_accepted.

(** What it is decoded to.  There are never card insertions; the number of bytes
    consumed is that of the parts. *)
Theorem C85_first_generation_layout :
  forall cm before s x n, bytes_ok s ->
  unmarshal_day cm (before ++ s) (length before) 1 = Ok (x, n) ->
  exists date odometer changes places conditions signature rest,
    s = day1_bytes date odometer changes places conditions signature ++ rest /\
    day1_parts date odometer changes places conditions signature /\
    n = length (day1_bytes date odometer changes places conditions signature) /\
    dy_generation x = 1 /\ dy_version x = 0 /\
    dy_date x = Some (mkTs (num date) 0) /\ dy_odometer x = num odometer /\ dy_iw x = [] /\
    Forall2 is_change changes (dy_changes x) /\ Forall2 is_cast_place places (dy_places x) /\
    Forall2 is_condition conditions (dy_conditions x) /\
    dy_gnss x = [] /\ dy_borders x = [] /\ dy_loads x = [] /\
    dy_signature1 x = Some signature /\ dy_signature2 x = None.
Proof.
  intros cm p s x n B H. unfold unmarshal_day in H. cbn [Z.eqb Pos.eqb] in H. rewrite day1_eq in H.
  apply ok_after in H as (o & H & ->). apply day1_reads in H; [|exact B].
  destruct H as (a & r & -> & -> & date & odo & k & changes & places & conditions & sg & cs & ps & ks & -> & P & -> & G1 & G2 & G3 & ->).
  exists date, odo, changes, places, conditions, sg, r. split; [reflexivity|]. split; [exact P|].
  split; [rewrite app_length; unfold day1_bytes; lia|].
  cbn [dy_generation dy_version dy_date dy_odometer dy_iw dy_changes dy_places dy_conditions dy_gnss dy_borders dy_loads dy_signature1 dy_signature2].
  destruct P as (L1 & L2 & F1 & F2 & F3 & L3).
  do 5 (split; [reflexivity|]). split.
  { assert (Bc : Forall bytes_ok changes) by (apply concat_ok; rewrite !bytes_ok_app in B; tauto).
    clear - F1 G1 Bc. induction G1 as [|b c bs cs E G IH]; [constructor|].
    apply Forall_cons_iff in F1 as [L F1], Bc as [Bb Bc]. constructor; [now apply change_parts|auto]. }
  split; [eapply parts_of; [|exact F2|exact G2]; intros b c L E; now apply cast_place_iff|].
  split; [eapply parts_of; [exact condition_parts|exact F3|exact G3]|]. auto 6.
Qed.
Print Assumptions C85_first_generation_layout.

(** The full statement "it reads what the decoder in activities_gen1.go reads" is
    false: the counts there have two bytes (one for places), so on an empty day the
    signature is cut three bytes too early, and a day with an insertion is refused. *)
Definition empty_day : bytes :=
  activities_bytes [94; 12; 0; 0] [0; 0; 10] [0; 0] [] [0; 0] [] 0 [] [0; 0] [] (repeat 9 128).

Theorem C85_agrees_refuted :
  (exists x y, unmarshal_activities_gen1 (fun _ b => b) empty_day = Ok x /\
     unmarshal_day (fun _ b => b) empty_day 0 1 = Ok (y, 139%nat) /\ length empty_day = 142%nat /\
     ac_signature x = repeat 9 128 /\ dy_signature1 y = Some ([0; 0; 0] ++ repeat 9 125)) /\
  exists x, unmarshal_activities_gen1 (fun _ b => b) (day 1 13) = Ok x /\
    forall y, unmarshal_day (fun _ b => b) (day 1 13) 0 1 <> Ok y.
Proof.
  split.
  - do 2 eexists. split; [vm_compute; reflexivity|]. split; [vm_compute; reflexivity|].
    split; [reflexivity|]. split; reflexivity.
  - destruct C83_C84_apply as (x & E). exists x. split; [exact E|]. intros y.
    assert (N : is_ok (unmarshal_day (fun _ b => b) (day 1 13) 0 1) = false) by (vm_compute; reflexivity).
    intros C. rewrite C in N. discriminate N.
Qed.
Print Assumptions C85_agrees_refuted.

Example C85_applies : exists x n,
  unmarshal_day (fun _ b => b)
    ([7; 7] ++ day1_bytes [94; 12; 0; 0] [0; 0; 10] [[0; 0]; [24; 60]] [[94; 12; 1; 0; 1; 200; 3; 0; 0; 9]]
       [[94; 12; 1; 0; 1]] (repeat 9 128) ++ [5]) 2 1 = Ok (x, n) /\
  n = 158%nat /\ length (dy_changes x) = 2%nat /\ map vp_country (dy_places x) = [200].
Proof. do 2 eexists. split; [vm_compute; reflexivity|]. repeat split; reflexivity. Qed.

(** ** Panics of the first generation, used in C86 *)

Lemma panics_day1 cm : panics (day1_body cm) (fun s =>
  (4 <= length s < 7)%nat \/
  exists head k r0, s = head ++ [k] ++ r0 /\ length head = 7%nat /\ (k = 0 \/ (length r0 < 126)%nat) /\
    ((exists n1 r1, r0 = [n1] ++ r1 /\ Z.of_nat (length r1) < n1 * 2) \/
     exists n1 changes n2 r2, r0 = [n1] ++ changes ++ [n2] ++ r2 /\ Z.of_nat (length changes) = n1 * 2 /\
       (Z.of_nat (length r2) < n2 * 10 \/
        exists places n3 r3, r2 = places ++ [n3] ++ r3 /\ Z.of_nat (length places) = n2 * 10 /\
          Z.of_nat (length r3) < n3 * 5))).
Proof.
  eapply panics_weaken.
  - unfold day1_body.
    eapply (panics_bind read_vu_time);
      [eapply reads_taking; [exact take_vu_time|discriminate]|eapply panics_never; exact take_vu_time|intros t].
    eapply (panics_bind (item unmarshal_odometer 3)); [apply reads_item|apply panics_item; exact odometer_np|intros odo].
    eapply (panics_bind (parse_iw_data cm)); [apply reads_iw_data|apply panics_iw_data|intros iw].
    eapply (panics_bind (counted parse_change));
      [apply reads_counted; exact (reads_item unmarshal_activity_change 2)
      |eapply panics_counted; [exact (reads_item unmarshal_activity_change 2)
         |exact (panics_item unmarshal_activity_change 2 change_np)|exact change_readable]|intros cs].
    eapply (panics_bind (counted parse_place));
      [apply reads_counted; exact (reads_item unmarshal_day_place 10)
      |eapply panics_counted; [exact (reads_item unmarshal_day_place 10)
         |exact (panics_item unmarshal_day_place 10 day_place_np)|]|intros ps].
    { intros a _ L. destruct (places_total [a]) as (cs' & E); [repeat constructor; exact L|].
      inversion E as [|? c ? ? Ec]; subst. eauto. }
    eapply (panics_bind (counted parse_condition));
      [apply reads_counted; exact (reads_item unmarshal_spec_cond 5)
      |eapply panics_counted; [exact (reads_item unmarshal_spec_cond 5)
         |exact (panics_item unmarshal_spec_cond 5 spec_cond_np)|intros a _; exact (condition_readable a)]|intros ks].
    eapply (panics_bind (fun d o => read_bytes d o 128));
      [eapply reads_taking; [exact (take_bytes 128)|discriminate]|eapply panics_never; exact (take_bytes 128)|intros sig].
    apply panics_ok.
  - intros s B. cbv beta. split.
    + intros [[]|(date & r & t & -> & [L1 _] & H)]. destruct H as [H|(odo & r1 & o & -> & [L2 _] & H)].
      { left. rewrite app_length. lia. }
      right. destruct H as [[]|(kk & r2 & iw & -> & (k & -> & _ & C) & H)].
      exists (date ++ odo), k, r2. split; [now rewrite <- app_assoc|]. split; [rewrite app_length; lia|]. split; [exact C|].
      destruct H as [H|(a1 & r3 & cs & -> & (changes & -> & F1 & _) & H)]; [left; exact H|right].
      exists (Z.of_nat (length changes)), (concat changes).
      assert (LC : Z.of_nat (length (concat changes)) = Z.of_nat (length changes) * 2)
        by (rewrite (concat_length_uniform 2) by exact F1; lia).
      destruct H as [(n2 & r4 & -> & H)|(a2 & r4 & ps & -> & (places & -> & F2 & _) & H)].
      { exists n2, r4. split; [now rewrite <- app_assoc|]. split; [exact LC|]. left. exact H. }
      exists (Z.of_nat (length places)), (concat places ++ r4). split; [now rewrite <- !app_assoc|]. split; [exact LC|]. right.
      destruct H as [(n3 & r5 & -> & H)|(a3 & r5 & ks & -> & _ & [[]|(? & ? & ? & _ & _ & [])])].
      exists (concat places), n3, r5. split; [reflexivity|]. split; [|exact H].
      rewrite (concat_length_uniform 10) by exact F2. lia.
    + intros [L|(head & k & r0 & -> & L & C & H)].
      { right. destruct (cut_at s 4 (length s - 4)) as (a & r & E & L1 & L2); [lia|].
        exists a, r, (num a). split; [exact E|]. split; [auto|]. left. lia. }
      right. destruct (cut_at head 4 3 L) as (date & odo & -> & L1 & L2).
      exists date, (odo ++ [k] ++ r0), (num date). split; [now rewrite <- app_assoc|]. split; [auto|]. right.
      exists odo, ([k] ++ r0), (be odo). split; [reflexivity|].
      split; [split; [exact L2|unfold unmarshal_odometer; rewrite L2; reflexivity]|]. right.
      exists [k], r0, []. split; [reflexivity|]. split; [eauto|].
      destruct H as [H|(n1 & changes & n2 & r2 & -> & E1 & H)]; [left; exact H|right].
      assert (B2 : bytes_ok ([n1] ++ changes ++ [n2] ++ r2)) by (rewrite !bytes_ok_app in B; rewrite !bytes_ok_app; tauto).
      assert (CH : exists bs, changes = concat bs /\ n1 = Z.of_nat (length bs) /\ Forall (fun b => length b = 2%nat) bs).
      { exists (chunks 2 changes). rewrite chunks_count, concat_chunks_exact; [|lia|].
        - split; [reflexivity|]. split; [|apply chunks_each; lia].
          rewrite Nat2Z.inj_div, E1. rewrite Z.div_mul; lia.
        - apply Nat2Z.inj. rewrite Nat2Z.inj_mod, E1. apply Z.mod_mul. lia. }
      destruct CH as (bs & -> & -> & F1).
      destruct (changes_total bs F1) as (cs & G1); [rewrite !bytes_ok_app in B2; tauto|].
      exists ([Z.of_nat (length bs)] ++ concat bs), ([n2] ++ r2), cs. split; [now rewrite <- app_assoc|].
      split; [exists bs; auto|].
      destruct H as [H|(places & n3 & r3 & -> & E2 & H)]; [left; eauto|right].
      assert (CP : exists bs, places = concat bs /\ n2 = Z.of_nat (length bs) /\ Forall (fun b => length b = 10%nat) bs).
      { exists (chunks 10 places). rewrite chunks_count, concat_chunks_exact; [|lia|].
        - split; [reflexivity|]. split; [|apply chunks_each; lia].
          rewrite Nat2Z.inj_div, E2. rewrite Z.div_mul; lia.
        - apply Nat2Z.inj. rewrite Nat2Z.inj_mod, E2. apply Z.mod_mul. lia. }
      destruct CP as (bp & -> & -> & F2). destruct (places_total bp F2) as (ps & G2).
      exists ([Z.of_nat (length bp)] ++ concat bp), ([n3] ++ r3), ps. split; [now rewrite <- !app_assoc|].
      split; [exists bp; auto|]. left. eauto.
Qed.

(** ** The second generation, before the properties about it *)

(** A number in two bytes. *)
Definition two (n : nat) : bytes := [Z.of_nat n / 256; Z.of_nat n mod 256].

Lemma two_num k n : bytes_ok k -> length k = 2%nat -> num k = Z.of_nat n -> k = two n /\ Z.of_nat n < 65536.
Proof.
  intros B L E. destruct k as [|x [|y [|? ?]]]; try discriminate L. rewrite !bytes_ok_cons in B. unfold byte_ok in B.
  unfold num in E. cbn [fold_left] in E. unfold two. rewrite <- E. split; [|lia].
  replace ((0 * 256 + x) * 256 + y) with (y + x * 256) by lia.
  rewrite Z.div_add, Z.mod_add, Z.div_small, Z.mod_small by lia. now rewrite Z.add_0_l.
Qed.

Lemma num_two n : Z.of_nat n < 65536 -> num (two n) = Z.of_nat n.
Proof. intros R. unfold num, two. cbn [fold_left]. pose proof (Z.div_mod (Z.of_nat n) 256). lia. Qed.

(** A record array: type, size of a record, number of records, records. *)
Definition array (ty size : Z) (bs : list bytes) : bytes := [0; ty; 0; size] ++ two (length bs) ++ concat bs.

(** The bytes the reader asks for.  [kg] is the announced number of positions;
    [borders] and [loads] are what stands for the two arrays of version 2; the last
    argument of [day2_parts] is what follows the day. *)
Definition day2_bytes (dates odometers : list bytes) (iw_size : bytes) (changes places : list bytes) (kg : bytes)
  (positions conditions : list bytes) (borders loads sig_count sig : bytes) : bytes :=
  array 1 4 dates ++ array 2 3 odometers ++ ([0; 13] ++ iw_size ++ [0; 0]) ++ array 3 2 changes ++ array 4 10 places ++
  ([0; 22; 0; 14] ++ kg ++ concat positions) ++ array 9 5 conditions ++ borders ++ loads ++
  [0; 8] ++ two (length sig) ++ sig_count ++ sig.

Definition records (n : nat) (bs : list bytes) : Prop :=
  Forall (fun b => length b = n) bs /\ Z.of_nat (length bs) < 65536.

(** Nothing, or the header of an array whose records are not there to be cut. *)
Definition unread (ty size : Z) (n : nat) (b after : bytes) : Prop :=
  b = [] \/ exists k, b = [0; ty; 0; size] ++ k /\ length k = 2%nat /\ (num k = 0 \/ (length after < n)%nat).

Definition day2_parts dates odometers (iw_size : bytes) changes places (kg : bytes) (positions conditions : list bytes)
  (borders loads sig_count sig rest : bytes) : Prop :=
  records 4 dates /\ records 3 odometers /\ length iw_size = 2%nat /\ records 2 changes /\ records 10 places /\
  length kg = 2%nat /\ Forall (fun b => length b = 14%nat) positions /\
  (num kg = Z.of_nat (length positions) \/
   Z.of_nat (length positions) < num kg /\ conditions = [] /\ borders = [] /\ loads = [] /\ length sig = 1%nat /\ rest = []) /\
  records 5 conditions /\
  unread 23 59 57 borders (loads ++ [0; 8] ++ two (length sig) ++ sig_count ++ sig ++ rest) /\
  unread 24 58 60 loads ([0; 8] ++ two (length sig) ++ sig_count ++ sig ++ rest) /\
  length sig_count = 2%nat /\ 1 <= Z.of_nat (length sig) <= 65530.

Lemma unread_cases ty size n b after : unread ty size n b after -> b = [] \/ length b = 6%nat.
Proof. intros [->|(k & -> & L & _)]; [now left|right]. rewrite app_length, L. reflexivity. Qed.

Lemma k_small n : (0 < n <= 100)%nat -> (0 < n <= max_token_size)%nat.
Proof. pose proof max_eq. lia. Qed.

Lemma gnss_np b : unmarshal_day_gnss b <> Panic.
Proof.
  unfold unmarshal_day_gnss, read_vu_time. destruct (negb _); cbn [guard bind]; [|discriminate].
  destruct (_ <? _)%nat; discriminate.
Qed.

Lemma day2_reads cm : reads (day2_body cm) (fun a x r =>
  exists dates odometers iw_size changes places kg positions conditions borders loads sig_count sig cs ps gs ks,
    a = day2_bytes dates odometers iw_size changes places kg positions conditions borders loads sig_count sig /\
    day2_parts dates odometers iw_size changes places kg positions conditions borders loads sig_count sig r /\
    Forall2 (fun b c => unmarshal_activity_change b = Ok c) changes cs /\
    Forall2 (fun b c => unmarshal_day_place b = Ok c) places ps /\
    Forall2 (fun b c => unmarshal_day_gnss b = Ok c) positions gs /\
    Forall2 (fun b c => unmarshal_spec_cond b = Ok c) conditions ks /\
    x = mkDay GENERATION_2 (if nonempty borders then VERSION_2 else VERSION_UNSPECIFIED)
          (hd None (map (fun b => Some (mkTs (num b) 0)) dates)) (hd 0 (map num odometers)) [] cs ps gs ks [] [] None (Some sig)).
Proof.
  eapply reads_weaken.
  - unfold day2_body.
    eapply reads_bind; [apply (reads_record_array 1 4 parse_date 4 (fun a x => x = Some (mkTs (num a) 0))); [lia..|exact reads_date]|intros ts].
    eapply reads_bind; [apply (reads_record_array 2 3 (item unmarshal_odometer 3) 3); [lia..|apply reads_item]|intros os].
    eapply (reads_bind (parse_iw_array cm)); [apply reads_iw_array|intros iw].
    eapply (reads_bind parse_change_array); [apply (reads_scanned_array 3 2 unmarshal_activity_change 2); [lia..|apply k_small; lia]|intros cs].
    eapply (reads_bind parse_place_array); [apply (reads_scanned_array 4 10 unmarshal_day_place 10); [lia..|apply k_small; lia]|intros ps].
    eapply (reads_bind parse_gnss_array); [apply (reads_scanned_array 22 14 unmarshal_day_gnss 14); [lia..|apply k_small; lia]|intros gs].
    eapply (reads_bind parse_condition_array); [apply (reads_scanned_array 9 5 unmarshal_spec_cond 5); [lia..|apply k_small; lia]|intros ks].
    eapply (reads_bind tail_at); [apply reads_tail|intros v].
    apply reads_ok.
  - intros a x r B. cbv beta. split.
    + intros (a1 & t1 & ts & -> & (kd & dates & -> & A1 & F1 & G1) &
              a2 & t2 & os & -> & (ko & odos & -> & A2 & F2 & G2) &
              a3 & t3 & iw & -> & (isz & -> & Li & ->) &
              a4 & t4 & cs & -> & (kc & changes & -> & A4 & F4 & G4) &
              a5 & t5 & ps & -> & (kp & places & -> & A5 & F5 & G5) &
              a6 & t6 & gs & -> & (kg & positions & -> & A6 & F6 & G6) &
              a7 & t7 & ks & -> & (kk & conditions & -> & A7 & F7 & G7) &
              a8 & t8 & v & -> & (b & l & z & c & sg & -> & K1 & K2 & Lz & Lc & Nz & Rz & ->) & -> & ->).
      rewrite ?app_nil_r in *. cbn [fst snd] in *.
      assert (Bk : bytes_ok kd /\ bytes_ok ko /\ bytes_ok kc /\ bytes_ok kp /\ bytes_ok kk /\ bytes_ok z)
        by (rewrite !bytes_ok_app in B; tauto). clear B.
      destruct Bk as (B1 & B2 & B4 & B5 & B7 & Bz).
      destruct A1 as [L1 N1], A2 as [L2 N2], A4 as [L4 N4], A5 as [L5 N5], A6 as [L6 N6], A7 as [L7 N7].
      assert (LT : (7 <= length (b ++ l ++ [0%Z; 8%Z] ++ z ++ c ++ sg))%nat).
      { rewrite !app_length. cbn [length]. lia. }
      set (tl := b ++ l ++ [0; 8] ++ z ++ c ++ sg) in *.
      assert (M7 : num kk = Z.of_nat (length conditions)).
      { destruct N7 as [N7|[_ N7]]; [exact N7|]. rewrite app_length in N7. lia. }
      assert (M5 : num kp = Z.of_nat (length places)).
      { destruct N5 as [N5|[_ N5]]; [exact N5|]. rewrite !app_length in N5. cbn [length] in N5. lia. }
      assert (M4 : num kc = Z.of_nat (length changes)).
      { destruct N4 as [N4|[_ N4]]; [exact N4|]. rewrite !app_length in N4. cbn [length] in N4. lia. }
      destruct (two_num kd _ B1 L1 N1) as [-> R1]. destruct (two_num ko _ B2 L2 N2) as [-> R2].
      destruct (two_num kc _ B4 L4 M4) as [-> R4]. destruct (two_num kp _ B5 L5 M5) as [-> R5].
      destruct (two_num kk _ B7 L7 M7) as [-> R7]. destruct (two_num z _ Bz Lz Nz) as [-> _].
      exists dates, odos, isz, changes, places, kg, positions, conditions, b, l, c, sg, cs, ps, gs, ks.
      split; [unfold day2_bytes, array, tl; rewrite <- !app_assoc; reflexivity|].
      split.
      { unfold day2_parts, records, unread. do 6 (split; [tauto|]). split; [exact F6|].
        split; [|unfold skipped in K1, K2; tauto].
        destruct N6 as [N6|[N6 S6]]; [left; exact N6|right]. split; [exact N6|].
        rewrite !app_length in S6. unfold tl in S6. rewrite !app_length in S6. cbn [length two] in S6.
        rewrite (concat_length_uniform 5 conditions F7) in S6.
        split; [destruct conditions; [reflexivity|cbn [length] in S6; lia]|].
        split; [destruct b; [reflexivity|cbn [length] in S6; lia]|].
        split; [destruct l; [reflexivity|cbn [length] in S6; lia]|].
        split; [lia|]. destruct r; [reflexivity|cbn [length] in S6; lia]. }
      do 4 (split; [assumption|]). f_equal.
      * clear - G1. destruct G1 as [|? ? ? ? ->]; reflexivity.
      * clear - G2 F2. destruct G2 as [|? ? ? ? E]; [reflexivity|]. apply odometer_is in E. exact E.
    + intros (dates & odos & isz & changes & places & kg & positions & conditions & b & l & c & sg & cs & ps & gs & ks & -> &
        ([F1 R1] & [F2 R2] & Li & [F4 R4] & [F5 R5] & Lg & F6 & N6 & [F7 R7] & K1 & K2 & Lc & Rz) & G4 & G5 & G6 & G7 & ->).
      unfold day2_bytes, array in *.
      assert (GO : exists os, Forall2 (fun b x => unmarshal_odometer b = Ok x) odos os /\ os = map num odos).
      { exists (map num odos). split; [|reflexivity]. clear - F2. induction F2 as [|o os L F IH]; [constructor|].
        cbn [map]. constructor; [|exact IH]. unfold unmarshal_odometer. rewrite L, num_be. reflexivity. }
      destruct GO as (os & G2 & Eo).
      eexists ([0; 1] ++ [0; 4] ++ two (length dates) ++ concat dates), _, (map (fun b => Some (mkTs (num b) 0)) dates).
      split; [rewrite <- !app_assoc; reflexivity|]. split.
      { exists (two (length dates)), dates. split; [reflexivity|]. split; [split; [reflexivity|now apply num_two]|].
        split; [exact F1|]. clear. induction dates; constructor; auto. }
      eexists ([0; 2] ++ [0; 3] ++ two (length odos) ++ concat odos), _, os.
      split; [rewrite <- !app_assoc; reflexivity|]. split.
      { exists (two (length odos)), odos. split; [reflexivity|]. split; [split; [reflexivity|now apply num_two]|].
        split; [exact F2|exact G2]. }
      eexists ([0; 13] ++ isz ++ [0; 0]), _, []. split; [rewrite <- !app_assoc; reflexivity|]. split; [eauto|].
      eexists ([0; 3] ++ [0; 2] ++ two (length changes) ++ concat changes), _, cs.
      split; [rewrite <- !app_assoc; reflexivity|]. split.
      { exists (two (length changes)), changes. split; [reflexivity|].
        split; [split; [reflexivity|left; now apply num_two]|]. auto. }
      eexists ([0; 4] ++ [0; 10] ++ two (length places) ++ concat places), _, ps.
      split; [rewrite <- !app_assoc; reflexivity|]. split.
      { exists (two (length places)), places. split; [reflexivity|].
        split; [split; [reflexivity|left; now apply num_two]|]. auto. }
      eexists ([0; 22] ++ [0; 14] ++ kg ++ concat positions),
        ([0; 9; 0; 5] ++ two (length conditions) ++ concat conditions ++ b ++ l ++ [0; 8] ++ two (length sg) ++ c ++ sg), gs.
      split; [rewrite <- !app_assoc; reflexivity|]. split.
      { exists kg, positions. split; [reflexivity|]. split; [|auto]. split; [exact Lg|].
        destruct N6 as [N6|(N6 & -> & -> & -> & Ls & ->)]; [left; exact N6|right]. split; [exact N6|].
        rewrite !app_length. cbn [length concat two]. lia. }
      eexists ([0; 9] ++ [0; 5] ++ two (length conditions) ++ concat conditions), _, ks.
      split; [rewrite <- !app_assoc; reflexivity|]. split.
      { exists (two (length conditions)), conditions. split; [reflexivity|].
        split; [split; [reflexivity|left; now apply num_two]|]. auto. }
      eexists (b ++ l ++ [0; 8] ++ two (length sg) ++ c ++ sg), [], ([], nonempty b, [], sg).
      split; [now rewrite app_nil_r|]. split.
      { exists b, l, (two (length sg)), c, sg. cbn [app]. split; [reflexivity|]. split; [exact K1|]. split; [exact K2|].
        split; [reflexivity|]. split; [exact Lc|]. split; [apply num_two; lia|]. auto. }
      split; [reflexivity|]. cbn [fst snd]. now rewrite Eo.
Qed.

Lemma panics_day2 cm : panics (day2_body cm) (fun s =>
  exists dates ko r, s = array 1 4 dates ++ [0; 2; 0; 3] ++ ko ++ r /\ records 4 dates /\ length ko = 2%nat /\
    Z.of_nat (length r) < 3 * num ko).
Proof.
  assert (RD : reads (array_at 1 4 (fun m d o => parse_records parse_date d m o)) (fun a xs _ => exists k bs,
    a = [0; 1] ++ [0; 4] ++ k ++ concat bs /\ announces k bs /\ Forall (fun b => length b = 4%nat) bs /\
    Forall2 (fun a x => x = Some (mkTs (num a) 0)) bs xs)) by (apply reads_record_array; [lia..|exact reads_date]).
  assert (RO : reads (array_at 2 3 (fun m d o => parse_records (item unmarshal_odometer 3) d m o)) (fun a xs _ => exists k bs,
    a = [0; 2] ++ [0; 3] ++ k ++ concat bs /\ announces k bs /\ Forall (fun b => length b = 3%nat) bs /\
    Forall2 (fun b x => unmarshal_odometer b = Ok x) bs xs)) by (apply reads_record_array; [lia..|apply reads_item]).
  eapply panics_weaken.
  - unfold day2_body.
    eapply panics_bind; [exact RD| |intros ts].
    { apply (panics_array 1 4 (fun m d o => parse_records parse_date d m o) (fun _ _ => False)); [lia..|].
      intros n p s B. split; [|intros []]. revert p s B. induction n as [|n IH]; intros p s B; [discriminate|]. cbn [parse_records].
      intros H. apply bind_panic in H as [H|([x o] & E & H)]; [now apply panics_date in H|].
      apply bind_panic in H as [H|([xs o'] & _ & H)]; [|discriminate H].
      apply reads_date in E; [|exact B]. destruct E as (a & r & -> & -> & _).
      rewrite app_assoc in H. apply IH in H; [exact H|rewrite !bytes_ok_app in B; tauto]. }
    eapply panics_bind; [exact RO| |intros os].
    { apply (panics_array 2 3 (fun m d o => parse_records (item unmarshal_odometer 3) d m o) (fun n s => (length s < n * 3)%nat)); [lia..|].
      apply (panics_records (item unmarshal_odometer 3) 3 (fun b x => unmarshal_odometer b = Ok x));
        [apply reads_item|apply panics_item; exact odometer_np|].
      intros a _ L. unfold unmarshal_odometer. rewrite L. eexists. reflexivity. }
    eapply (panics_bind (parse_iw_array cm)); [apply reads_iw_array|apply panics_iw_array|intros iw].
    eapply (panics_bind parse_change_array);
      [apply (reads_scanned_array 3 2 unmarshal_activity_change 2); [lia..|apply k_small; lia]
      |apply panics_scanned_array; [lia..|apply k_small; lia|exact change_np]|intros cs].
    eapply (panics_bind parse_place_array);
      [apply (reads_scanned_array 4 10 unmarshal_day_place 10); [lia..|apply k_small; lia]
      |apply panics_scanned_array; [lia..|apply k_small; lia|exact day_place_np]|intros ps].
    eapply (panics_bind parse_gnss_array);
      [apply (reads_scanned_array 22 14 unmarshal_day_gnss 14); [lia..|apply k_small; lia]
      |apply panics_scanned_array; [lia..|apply k_small; lia|exact gnss_np]|intros gs].
    eapply (panics_bind parse_condition_array);
      [apply (reads_scanned_array 9 5 unmarshal_spec_cond 5); [lia..|apply k_small; lia]
      |apply panics_scanned_array; [lia..|apply k_small; lia|exact spec_cond_np]|intros ks].
    eapply (panics_bind tail_at); [apply reads_tail|apply panics_tail|intros v].
    apply panics_ok.
  - intros s B. cbv beta. split.
    + intros [(k & r & _ & _ & [])|(a & r & ts & -> & (k & dates & -> & [L N] & F1 & _) & H)].
      assert (Bk : bytes_ok k /\ bytes_ok r) by (rewrite !bytes_ok_app in B; tauto). destruct Bk as [Bk Br].
      destruct (two_num k _ Bk L N) as [-> R].
      destruct H as [(ko & q & -> & Lo & S)|(a & q & os & _ & _ & H)].
      * exists dates, ko, q. split; [unfold array; rewrite <- !app_assoc; reflexivity|].
        split; [split; assumption|]. split; [exact Lo|].
        rewrite !bytes_ok_app in Br. assert (0 <= num ko) by (apply num_nonneg; tauto). lia.
      * exfalso. do 6 (destruct H as [[]|(? & ? & ? & _ & _ & H)]). exact H.
    + intros (dates & ko & r & -> & [F1 R] & L & S). right.
      exists ([0; 1] ++ [0; 4] ++ two (length dates) ++ concat dates), ([0; 2; 0; 3] ++ ko ++ r),
        (map (fun b => Some (mkTs (num b) 0)) dates).
      split; [unfold array; rewrite <- !app_assoc; reflexivity|]. split.
      { exists (two (length dates)), dates. split; [reflexivity|]. split; [split; [reflexivity|now apply num_two]|].
        split; [exact F1|]. clear. induction dates; constructor; auto. }
      left. exists ko, r. split; [reflexivity|]. split; [exact L|]. lia.
Qed.

(** ** C86: panics *)

Lemma after_panic {X} (f : bytes -> nat -> res (X * nat)) d start :
  (let* (x, o) := f d start in Ok (x, (o - start)%nat)) = Panic <-> f d start = Panic.
Proof.
  split.
  - intros H. apply bind_panic in H as [H|([y o] & _ & H)]; [exact H|discriminate H].
  - intros ->. reflexivity.
Qed.

(** The full statement "the reader returns an error for bytes it cannot use" is
    false: it slices behind the end. *)
Theorem C86_never_panics_refuted :
  (exists s, bytes_ok s /\ unmarshal_day (fun _ b => b) s 0 1 = Panic) /\
  (exists s, bytes_ok s /\ unmarshal_day (fun _ b => b) s 0 2 = Panic) /\
  (exists s start, bytes_ok s /\ unmarshal_all_as_signature s start 2 = Panic).
Proof.
  split; [|split].
  - exists (repeat 0 5). split; [repeat constructor; unfold byte_ok; lia|reflexivity].
  - exists [0; 1; 0; 4; 0; 0; 0; 2; 0; 3; 0; 1; 0; 0]. split; [repeat constructor; unfold byte_ok; lia|reflexivity].
  - exists [], 1%nat. split; [constructor|reflexivity].
Qed.
Print Assumptions C86_never_panics_refuted.

(** Exactly when: the odometer is missing behind the date, or an announced change,
    place or condition is missing.  (The byte at offset 7 announces card insertions;
    unless it is zero or fewer than 126 bytes follow, there is an error before.) *)
Theorem C86_first_generation_panics :
  forall cm before s, bytes_ok s ->
  (unmarshal_day cm (before ++ s) (length before) 1 = Panic <->
   (4 <= length s < 7)%nat \/
   exists head k r0, s = head ++ [k] ++ r0 /\ length head = 7%nat /\ (k = 0 \/ (length r0 < 126)%nat) /\
     ((exists n1 r1, r0 = [n1] ++ r1 /\ Z.of_nat (length r1) < n1 * 2) \/
      exists n1 changes n2 r2, r0 = [n1] ++ changes ++ [n2] ++ r2 /\ Z.of_nat (length changes) = n1 * 2 /\
        (Z.of_nat (length r2) < n2 * 10 \/
         exists places n3 r3, r2 = places ++ [n3] ++ r3 /\ Z.of_nat (length places) = n2 * 10 /\
           Z.of_nat (length r3) < n3 * 5))).
Proof.
  intros cm p s B. unfold unmarshal_day. cbn [Z.eqb Pos.eqb]. rewrite day1_eq, after_panic. now apply panics_day1.
Qed.
Print Assumptions C86_first_generation_panics.

(** In the second generation only the announced odometers are taken unchecked. *)
Theorem C86_second_generation_panics :
  forall cm before s, bytes_ok s ->
  (unmarshal_day cm (before ++ s) (length before) 2 = Panic <->
   exists dates ko r, s = array 1 4 dates ++ [0; 2; 0; 3] ++ ko ++ r /\ records 4 dates /\ length ko = 2%nat /\
     Z.of_nat (length r) < 3 * num ko).
Proof.
  intros cm p s B. unfold unmarshal_day. cbn [Z.eqb Pos.eqb]. rewrite day2_eq, after_panic. now apply panics_day2.
Qed.
Print Assumptions C86_second_generation_panics.

(** Other generations and offsets behind the end are errors; detailed speed and
    technical data panic for those offsets, and else take all that follows as a signature,
    of the second generation unless it is the first. *)
Theorem C86_other_inputs :
  forall cm d start generation,
  ((length d < start)%nat \/ (generation <> 1 /\ generation <> 2) ->
   exists e, unmarshal_day cm d start generation = Err e) /\
  (unmarshal_all_as_signature d start generation = Panic <-> (length d < start)%nat) /\
  (forall before s, d = before ++ s -> length before = start ->
     exists g, unmarshal_all_as_signature d start generation = Ok (g, s, length s) /\ (generation = 1 -> g = 1) /\ (generation <> 1 -> g = 2)).
Proof.
  intros cm d start g. split; [|split].
  - intros [L|[N1 N2]]; unfold unmarshal_day.
    + destruct (g =? 1); [|destruct (g =? 2); [|eexists; reflexivity]].
      * unfold unmarshal_day_gen1, read_vu_time. destruct (Nat.ltb_spec (length d) (start + 4)); [|lia]. eexists. reflexivity.
      * unfold unmarshal_day_gen2, parse_date_array, read_header.
        destruct (Nat.ltb_spec (length d) (start + 6)); [|lia]. eexists. reflexivity.
    + destruct (Z.eqb_spec g 1); [contradiction|]. destruct (Z.eqb_spec g 2); [contradiction|]. eexists. reflexivity.
  - unfold unmarshal_all_as_signature. destruct (Nat.ltb_spec (length d) start); split; try discriminate; try lia; auto.
  - intros before s -> <-. unfold unmarshal_all_as_signature. rewrite app_length.
    destruct (Nat.ltb_spec (length before + length s) (length before)); [lia|].
    rewrite skipn_app, skipn_all, Nat.sub_diag. cbn [List.app skipn]. replace (length before + length s - length before)%nat with (length s) by lia.
    eexists. split; [reflexivity|]. destruct (Z.eqb_spec g 1); split; intros; try reflexivity; contradiction.
Qed.
Print Assumptions C86_other_inputs.

Example C86_applies :
  unmarshal_day (fun _ b => b) ([7] ++ [94; 12; 0; 0; 0; 0; 10; 0; 1; 0; 0; 2] ++ repeat 0 19) 1 1 = Panic /\
  unmarshal_day (fun _ b => b) ([7] ++ array 1 4 [[94; 12; 0; 0]] ++ [0; 2; 0; 3] ++ [0; 2] ++ [0; 0; 10; 0; 0]) 1 2 = Panic.
Proof. split; reflexivity. Qed.

(** ** C87: the second generation *)

Definition signed32 (l : bytes) : Z := if num l <? 2147483648 then num l else num l - 4294967296.

Definition is_position (b : bytes) (g : day_gnss) : Prop :=
  exists time accuracy latitude longitude authentication,
    b = time ++ [accuracy] ++ latitude ++ longitude ++ [authentication] /\
    length time = 4%nat /\ length latitude = 4%nat /\ length longitude = 4%nat /\
    g = mkDayGnss (Some (mkTs (num time) 0)) accuracy (Some (mkGeo (signed32 latitude) (signed32 longitude))) authentication.

Lemma signed32_is l : bytes_ok l -> length l = 4%nat -> s32 (be l) = signed32 l.
Proof.
  intros B L. unfold s32, signed32. rewrite num_be. pose proof (be_range l B) as R. rewrite L in R.
  change (256 ^ Z.of_nat 4) with 4294967296 in R. cbn zeta. now rewrite Z.mod_small by lia.
Qed.

Lemma position_parts b g : bytes_ok b -> length b = 14%nat -> unmarshal_day_gnss b = Ok g -> is_position b g.
Proof.
  intros B L. do 14 (destruct b as [|? b]; [discriminate L|]). destruct b; [|discriminate L].
  unfold unmarshal_day_gnss. cbn -[be s32]. intros E. apply Ok_inj in E. subst g.
  exists [z; z0; z1; z2], z3, [z4; z5; z6; z7], [z8; z9; z10; z11], z12.
  assert (B1 : bytes_ok [z4; z5; z6; z7]) by (rewrite !bytes_ok_cons in *; tauto).
  assert (B2 : bytes_ok [z8; z9; z10; z11]) by (rewrite !bytes_ok_cons in *; tauto).
  rewrite (signed32_is _ B1 eq_refl), (signed32_is _ B2 eq_refl).
  repeat split; reflexivity.
Qed.

Lemma positions_total bs : Forall (fun b => length b = 14%nat) bs ->
  exists gs, Forall2 (fun b c => unmarshal_day_gnss b = Ok c) bs gs.
Proof.
  induction 1 as [|b bs L F (gs & IH)]; [eauto|].
  assert (T : exists c, unmarshal_day_gnss b = Ok c).
  { do 14 (destruct b as [|? b]; [discriminate L|]). eexists. reflexivity. }
  destruct T as (c & E). eauto.
Qed.

(** A second-generation day is accepted exactly if it has this layout: in
    particular no card insertion, border crossing or load is ever read. *)
Theorem C87_second_generation_accepted :
  forall cm before s, bytes_ok s ->
  ((exists x n, unmarshal_day cm (before ++ s) (length before) 2 = Ok (x, n)) <->
   exists dates odometers iw_size changes places kg positions conditions borders loads sig_count sig rest,
     s = day2_bytes dates odometers iw_size changes places kg positions conditions borders loads sig_count sig ++ rest /\
     day2_parts dates odometers iw_size changes places kg positions conditions borders loads sig_count sig rest).
Proof.
  intros cm p s B. unfold unmarshal_day. cbn [Z.eqb Pos.eqb]. rewrite day2_eq. split.
  - intros (x & n & H). apply ok_after in H as (o & H & _). apply day2_reads in H; [|exact B].
    destruct H as (a & r & -> & _ & dates & odos & isz & changes & places & kg & positions & conditions & b & l & c & sg &
      cs & ps & gs & ks & -> & P & _).
    exists dates, odos, isz, changes, places, kg, positions, conditions, b, l, c, sg, r. auto.
  - intros (dates & odos & isz & changes & places & kg & positions & conditions & b & l & c & sg & r & -> & P).
    pose proof P as ([F1 R1] & [F2 R2] & Li & [F4 R4] & [F5 R5] & Lg & F6 & N6 & [F7 R7] & K1 & K2 & Lc & Rz).
    assert (Bc : bytes_ok (concat changes)).
    { unfold day2_bytes, array in B. rewrite !bytes_ok_app in B. tauto. }
    destruct (changes_total _ F4 Bc) as (cs & G4). destruct (places_total _ F5) as (ps & G5).
    destruct (positions_total _ F6) as (gs & G6). destruct (conditions_total _ F7) as (ks & G7).
    eexists _, _. apply ok_after. eexists. split; [|reflexivity]. apply day2_reads; [exact B|].
    eexists _, r. split; [reflexivity|]. split; [reflexivity|].
    exists dates, odos, isz, changes, places, kg, positions, conditions, b, l, c, sg, cs, ps, gs, ks. auto 8.
Qed.
Print Assumptions C87_second_generation_accepted.

(** What it is decoded to: the first date and odometer of their arrays, every
    record of the others, version 2 if the header of the border crossings is there. *)
Theorem C87_second_generation_layout :
  forall cm before s x n, bytes_ok s ->
  unmarshal_day cm (before ++ s) (length before) 2 = Ok (x, n) ->
  exists dates odometers iw_size changes places kg positions conditions borders loads sig_count sig rest,
    s = day2_bytes dates odometers iw_size changes places kg positions conditions borders loads sig_count sig ++ rest /\
    day2_parts dates odometers iw_size changes places kg positions conditions borders loads sig_count sig rest /\
    n = length (day2_bytes dates odometers iw_size changes places kg positions conditions borders loads sig_count sig) /\
    dy_generation x = 2 /\ (dy_version x = 2 <-> borders <> []) /\ (borders = [] -> dy_version x = 0) /\
    (forall d ds, dates = d :: ds -> dy_date x = Some (mkTs (num d) 0)) /\ (dates = [] -> dy_date x = None) /\
    (forall o os, odometers = o :: os -> dy_odometer x = num o) /\ (odometers = [] -> dy_odometer x = 0) /\
    dy_iw x = [] /\ Forall2 is_change changes (dy_changes x) /\ Forall2 is_cast_place places (dy_places x) /\
    Forall2 is_position positions (dy_gnss x) /\ Forall2 is_condition conditions (dy_conditions x) /\
    dy_borders x = [] /\ dy_loads x = [] /\ dy_signature1 x = None /\ dy_signature2 x = Some sig.
Proof.
  intros cm p s x n B H. unfold unmarshal_day in H. cbn [Z.eqb Pos.eqb] in H. rewrite day2_eq in H.
  apply ok_after in H as (o & H & ->). apply day2_reads in H; [|exact B].
  destruct H as (a & r & -> & -> & dates & odos & isz & changes & places & kg & positions & conditions & b & l & c & sg &
      cs & ps & gs & ks & -> & P & G4 & G5 & G6 & G7 & ->).
  exists dates, odos, isz, changes, places, kg, positions, conditions, b, l, c, sg, r. split; [reflexivity|]. split; [exact P|].
  split; [rewrite app_length; lia|].
  cbn [dy_generation dy_version dy_date dy_odometer dy_iw dy_changes dy_places dy_conditions dy_gnss dy_borders dy_loads dy_signature1 dy_signature2].
  destruct P as ([F1 R1] & [F2 R2] & Li & [F4 R4] & [F5 R5] & Lg & F6 & N6 & [F7 R7] & _).
  split; [reflexivity|].
  split; [destruct b; cbn [nonempty]; split; intros C; try discriminate; try reflexivity; now destruct C|].
  split; [intros ->; reflexivity|]. split; [intros d ds ->; reflexivity|]. split; [intros ->; reflexivity|].
  split; [intros d ds ->; reflexivity|]. split; [intros ->; reflexivity|]. split; [reflexivity|].
  assert (Bc : Forall bytes_ok changes /\ Forall bytes_ok positions)
    by (unfold day2_bytes, array in B; rewrite !bytes_ok_app in B; split; apply concat_ok; tauto).
  destruct Bc as [Bc Bg]. split.
  { clear - F4 G4 Bc. induction G4 as [|b c bs cs E G IH]; [constructor|].
    apply Forall_cons_iff in F4 as [L F1], Bc as [Bb Bc]. constructor; [now apply change_parts|auto]. }
  split; [eapply parts_of; [|exact F5|exact G5]; intros q e L E; now apply cast_place_iff|]. split.
  { clear - F6 G6 Bg. induction G6 as [|b c bs cs E G IH]; [constructor|].
    apply Forall_cons_iff in F6 as [L F1], Bg as [Bb Bc]. constructor; [now apply position_parts|auto]. }
  split; [eapply parts_of; [exact condition_parts|exact F7|exact G7]|]. auto 6.
Qed.
Print Assumptions C87_second_generation_layout.

Example C87_applies : exists x n,
  unmarshal_day (fun _ b => b)
    ([7; 7] ++ day2_bytes [[94; 12; 0; 0]] [[0; 0; 10]] [0; 129] [[0; 0]; [24; 60]] [[94; 12; 1; 0; 1; 200; 3; 0; 0; 9]]
       [0; 1] [[94; 12; 1; 0; 5; 255; 255; 255; 254; 0; 0; 1; 0; 1]] [[94; 12; 1; 0; 1]] [0; 23; 0; 59; 0; 1] [] [0; 1]
       (repeat 9 44) ++ [5]) 2 2 = Ok (x, n) /\
  n = 138%nat /\ dy_version x = 2 /\ map dg_geo (dy_gnss x) = [Some (mkGeo (-2) 256)] /\ dy_borders x = [].
Proof. do 2 eexists. split; [vm_compute; reflexivity|]. repeat split; reflexivity. Qed.

(** ** C88: announced records *)

(** The full statement "an accepted day holds as many positions, border crossings
    and loads as its arrays announce" is false: positions that are missing before
    the last thirteen bytes, and border crossings and loads before fewer than 57 and
    60 bytes, are left out without an error. *)
Theorem C88_all_records_read_refuted :
  (exists s x, unmarshal_day (fun _ b => b) s 0 2 = Ok (x, length s) /\
     s = array 1 4 [] ++ array 2 3 [] ++ [0; 13; 0; 0; 0; 0] ++ array 3 2 [] ++ array 4 10 [] ++
         [0; 22; 0; 14] ++ [0; 3] ++ array 9 5 [] ++ [0; 8] ++ [0; 1] ++ [0; 1] ++ [9] /\ dy_gnss x = []) /\
  (exists s x, unmarshal_day (fun _ b => b) s 0 2 = Ok (x, length s) /\
     s = array 1 4 [] ++ array 2 3 [] ++ [0; 13; 0; 0; 0; 0] ++ array 3 2 [] ++ array 4 10 [] ++
         [0; 22; 0; 14] ++ [0; 0] ++ array 9 5 [] ++ ([0; 23; 0; 59] ++ [0; 2]) ++ ([0; 24; 0; 58] ++ [0; 2]) ++
         [0; 8] ++ [0; 44] ++ [0; 1] ++ repeat 9 44 /\ dy_borders x = [] /\ dy_loads x = []).
Proof.
  split; do 2 eexists; (split; [|split; [reflexivity|]]); [vm_compute; reflexivity|reflexivity|vm_compute; reflexivity|split; reflexivity].
Qed.
Print Assumptions C88_all_records_read_refuted.

(** What holds: a signature of at least two bytes, or anything behind the day,
    excludes it for the positions; border crossings and loads are announced only
    before fewer bytes than one record has. *)
Theorem C88_all_records_read_partial :
  forall cm before s x n, bytes_ok s ->
  unmarshal_day cm (before ++ s) (length before) 2 = Ok (x, n) ->
  exists head kg positions tail,
    s = head ++ [0; 22; 0; 14] ++ kg ++ concat positions ++ tail /\ length kg = 2%nat /\
    length (dy_gnss x) = length positions /\ Z.of_nat (length (dy_gnss x)) <= num kg /\
    ((14 <= length tail)%nat -> Z.of_nat (length (dy_gnss x)) = num kg).
Proof.
  intros cm p s x n B H.
  apply C87_second_generation_layout in H; [|exact B].
  destruct H as (dates & odos & isz & changes & places & kg & positions & conditions & b & l & c & sg & r & -> & P & _ &
    _ & _ & _ & _ & _ & _ & _ & _ & _ & _ & G & _).
  destruct P as (_ & _ & _ & _ & _ & Lg & _ & N6 & _ & _ & _ & Lc & _).
  apply forall2_length in G.
  exists (array 1 4 dates ++ array 2 3 odos ++ ([0; 13] ++ isz ++ [0; 0]) ++ array 3 2 changes ++ array 4 10 places), kg, positions,
    (array 9 5 conditions ++ b ++ l ++ ([0; 8] ++ two (length sg) ++ c ++ sg) ++ r).
  split; [unfold day2_bytes; rewrite <- !app_assoc; reflexivity|]. split; [exact Lg|]. split; [congruence|].
  rewrite <- G. split; [lia|]. intros LT.
  destruct N6 as [N6|(_ & -> & -> & -> & Ls & ->)]; [congruence|].
  unfold array in LT. rewrite !app_length in LT. cbn [length concat two] in LT. lia.
Qed.
Print Assumptions C88_all_records_read_partial.
