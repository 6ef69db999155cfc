(** C146: the index of the newest record in a message. *)

From Verif Require Import Base Enums DDScalar DDString DDRecord Chunks CardRecords P_Basic P_Scanner P_Scalar Field P_Record P_Records Props_Records.

(** How vehicle units store records by index, docs/regulation/chapters/03-data-dictionary.md:884-896,
    1078, 1112, 2039, 3187 ("the index of the last updated ... record"): the first record
    goes to the first place, each further one to the next place, after the last place
    comes the first again. *)
Definition replace_at (i : nat) (r : bytes) (l : list bytes) : list bytes := firstn i l ++ r :: skipn (i + 1) l.

Fixpoint stored_from (k : nat) (rs : list bytes) (places : list bytes) : list bytes :=
  match rs with
  | [] => places
  | r :: t => stored_from (k + 1) t (replace_at (k mod length places) r places)
  end.

(** The file after the records [rs]; the index of the newest takes [pw] bytes. *)
Definition indexed_file (pw : nat) (places rs : list bytes) : bytes :=
  to_be pw (Z.of_nat ((length rs - 1) mod length places)) ++ concat (stored_from 0 rs places).

(** A file for records of [w] bytes, with anything in it at first. *)
Definition in_use (pw w : nat) (places rs : list bytes) : Prop :=
  Forall (fun r => bytes_ok r /\ length r = w) places /\ Forall (fun r => bytes_ok r /\ length r = w) rs /\
  places <> [] /\ rs <> [] /\ Z.of_nat (length places) <= 256 ^ Z.of_nat pw.

(** The record of the message at the index is the last that was stored, the one before
    it the last but one, and so on around the list. *)
Definition latest {R} (read : bytes -> res R) (rs : list bytes) (newest : Z) (records : list R) : Prop :=
  forall i, (i < length rs)%nat -> (i < length records)%nat ->
  exists r, read (nth (length rs - 1 - i) rs []) = Ok r /\
    nth_error records ((Z.to_nat newest + length records - i) mod length records) = Some r.

(** ** The file *)

Lemma replace_length i r l : (i < length l)%nat -> length (replace_at i r l) = length l.
Proof. intros L. unfold replace_at. rewrite app_length, firstn_length_le by lia. cbn [length]. rewrite skipn_length. lia. Qed.

Lemma replace_same i r l : (i < length l)%nat -> nth i (replace_at i r l) [] = r.
Proof. intros L. unfold replace_at. rewrite app_nth2; rewrite firstn_length_le by lia; [|lia]. now rewrite Nat.sub_diag. Qed.

Lemma nth_skip {X} (l : list X) n i d : nth i (skipn n l) d = nth (n + i) l d.
Proof.
  revert l. induction n as [|n IH]; intros l; [reflexivity|]. destruct l as [|x l]; [destruct i; reflexivity|]. apply IH.
Qed.

Lemma replace_other i j r l : (i < length l)%nat -> j <> i -> nth j (replace_at i r l) [] = nth j l [].
Proof.
  intros L N. unfold replace_at. rewrite <- (firstn_skipn i l) at 3. destruct (Nat.lt_ge_cases j i) as [K|K].
  - rewrite !app_nth1 by (rewrite firstn_length_le; lia). reflexivity.
  - rewrite !app_nth2 by (rewrite firstn_length_le; lia). rewrite firstn_length_le by lia.
    destruct (j - i)%nat as [|k] eqn:E; [lia|]. cbn [nth]. rewrite !nth_skip. f_equal. lia.
Qed.

Lemma replace_all (P : bytes -> Prop) i r l : P r -> Forall P l -> Forall P (replace_at i r l).
Proof.
  intros R H. rewrite <- (firstn_skipn i l) in H. apply Forall_app in H as [H1 H2]. unfold replace_at. apply Forall_app. split; auto.
  constructor; auto. rewrite <- (firstn_skipn (i + 1) l) in H2. rewrite Forall_forall in *. intros x I. apply H2.
  rewrite firstn_skipn. clear - I. revert i I. induction l as [|y l IH]; intros i I.
  - rewrite skipn_nil in I. destruct I.
  - destruct i as [|i]; cbn [Nat.add skipn] in *; [now right|]. auto.
Qed.

Lemma stored_snoc rs r : forall k l, l <> [] -> stored_from k (rs ++ [r]) l =
  replace_at ((k + length rs) mod length l) r (stored_from k rs l).
Proof.
  induction rs as [|x t IH]; intros k l N; cbn [List.app stored_from].
  - cbn [length]. now rewrite Nat.add_0_r.
  - assert (L : length l <> 0%nat) by (destruct l; [congruence|discriminate]).
    assert (R : length (replace_at (k mod length l) x l) = length l) by (apply replace_length, Nat.mod_upper_bound, L).
    rewrite IH by (intros E; rewrite E in R; cbn in R; lia). rewrite R. cbn [length]. do 2 f_equal. lia.
Qed.

Lemma stored_length rs : forall k l, l <> [] -> length (stored_from k rs l) = length l.
Proof.
  induction rs as [|x t IH]; intros k l N; [reflexivity|]. cbn [stored_from].
  assert (L : length l <> 0%nat) by (destruct l; [congruence|discriminate]).
  assert (R : length (replace_at (k mod length l) x l) = length l) by (apply replace_length, Nat.mod_upper_bound, L).
  rewrite IH; [exact R|]. intros E. rewrite E in R. cbn in R. lia.
Qed.

Lemma stored_all (P : bytes -> Prop) rs : forall k l, Forall P rs -> Forall P l -> Forall P (stored_from k rs l).
Proof.
  induction rs as [|x t IH]; intros k l H1 H2; [exact H2|]. inversion H1; subst. cbn [stored_from]. auto using replace_all.
Qed.

Lemma apart n a b : (a < b)%nat -> (b < a + n)%nat -> (a mod n <> b mod n)%nat.
Proof.
  intros A B E. pose proof (Nat.div_mod a n ltac:(lia)) as P. pose proof (Nat.div_mod b n ltac:(lia)) as Q. rewrite E in P.
  set (x := (a / n)%nat) in *. set (y := (b / n)%nat) in *. set (m := (b mod n)%nat) in *. clearbody x y m.
  destruct (Nat.le_gt_cases y x) as [C|C].
  - assert (n * y <= n * x)%nat by nia. lia.
  - assert (n * y >= n * x + n)%nat by nia. lia.
Qed.

Lemma stored_latest rs l : l <> [] -> forall i, (i < length rs)%nat -> (i < length l)%nat ->
  nth ((length rs - 1 - i) mod length l) (stored_from 0 rs l) [] = nth (length rs - 1 - i) rs [].
Proof.
  intros N. induction rs as [|r rs IH] using rev_ind; intros i I L; [cbn in I; lia|].
  rewrite stored_snoc by exact N. rewrite app_length in *. cbn [length Nat.add] in *.
  assert (SL : length (stored_from 0 rs l) = length l) by now apply stored_length.
  assert (U : (length rs mod length l < length l)%nat) by (apply Nat.mod_upper_bound; lia).
  destruct i as [|i].
  - replace (length rs + 1 - 1 - 0)%nat with (length rs) by lia. rewrite replace_same by lia.
    rewrite app_nth2 by lia. now rewrite Nat.sub_diag.
  - rewrite replace_other; [|lia|apply apart; lia].
    replace (length rs + 1 - 1 - Datatypes.S i)%nat with (length rs - 1 - i)%nat by lia.
    rewrite IH by lia. rewrite app_nth1 by lia. reflexivity.
Qed.

(** ** From the records of the file to those of the message *)

Lemma latest_read {R} (read : bytes -> res R) places rs records newest : places <> [] -> rs <> [] ->
  Forall2 (fun c r => read c = Ok r) (stored_from 0 rs places) records ->
  newest = Z.of_nat ((length rs - 1) mod length places) -> length records = length places /\ latest read rs newest records.
Proof.
  intros NP NR F E.
  assert (L : length records = length places) by (rewrite <- (stored_length rs 0 places NP); symmetry; clear - F; induction F; cbn [length]; auto).
  split; [exact L|]. intros i I J. rewrite E, Nat2Z.id, L in *.
  assert (LP : length places <> 0%nat) by (destruct places; [congruence|discriminate]).
  assert (M : (((length rs - 1) mod length places + length places - i) mod length places = (length rs - 1 - i) mod length places)%nat).
  { replace (length rs - 1)%nat with (length rs - 1 - i + i)%nat at 1 by lia.
    set (a := (length rs - 1 - i)%nat). pose proof (Nat.mod_upper_bound a (length places) LP) as U.
    rewrite <- (Nat.add_mod_idemp_l a i) by lia. set (m := (a mod length places)%nat) in *. clearbody m.
    destruct (Nat.lt_ge_cases (m + i) (length places)) as [C|C].
    - rewrite (Nat.mod_small (m + i)) by lia. replace (m + i + length places - i)%nat with (m + 1 * length places)%nat by lia.
      rewrite Nat.mod_add, Nat.mod_small by lia. reflexivity.
    - replace (m + i)%nat with ((m + i - length places) + 1 * length places)%nat at 1 by lia. rewrite Nat.mod_add by lia.
      rewrite (Nat.mod_small (m + i - length places)) by lia. replace (m + i - length places + length places - i)%nat with m by lia.
      apply Nat.mod_small. lia. }
  rewrite M. pose proof (stored_latest rs places NP i I J) as Q.
  set (k := ((length rs - 1 - i) mod length places)%nat) in *.
  assert (K : (k < length (stored_from 0 rs places))%nat) by (rewrite stored_length by auto; apply Nat.mod_upper_bound; lia).
  rewrite <- Q. clearbody k. clear - F K. revert k K. induction F as [|c r cs rr Y F IH]; intros k K; [cbn in K; lia|].
  destruct k as [|k]; [eauto|]. cbn [nth nth_error]. apply IH. cbn in K. lia.
Qed.

(** The parts of such a file. *)
Lemma file_parts pw w places rs : (0 < w)%nat -> in_use pw w places rs ->
  bytes_ok (indexed_file pw places rs) /\ length (indexed_file pw places rs) = (pw + length places * w)%nat /\
  be (sub (indexed_file pw places rs) 0 pw) = Z.of_nat ((length rs - 1) mod length places) /\
  skipn pw (indexed_file pw places rs) = concat (stored_from 0 rs places) /\
  chunks w (concat (stored_from 0 rs places)) = stored_from 0 rs places.
Proof.
  intros W (P & R & NP & NR & B). pose proof (stored_all _ rs 0%nat places R P) as S. pose proof (stored_length rs 0 places NP) as SL.
  set (ls := stored_from 0 rs places) in *. unfold indexed_file. fold ls. clearbody ls.
  assert (LC : length (concat ls) = (length ls * w)%nat).
  { clear SL. induction S as [|x l [_ X] S IH]; [reflexivity|]. cbn [concat length]. rewrite app_length, IH, X. lia. }
  assert (LP : length places <> 0%nat) by (destruct places; [congruence|discriminate]).
  split; [|split; [|split; [|split]]].
  - apply bytes_ok_app. split; [apply to_be_ok|]. clear - S. induction S as [|x l [X _] S IH]; [constructor|]. cbn [concat].
    apply bytes_ok_app. auto.
  - rewrite app_length, to_be_length, LC, SL. reflexivity.
  - unfold sub. cbn [skipn]. rewrite firstn_app, to_be_length, Nat.sub_diag, firstn_O, app_nil_r, firstn_all2 by (rewrite to_be_length; lia).
    rewrite be_to_be. apply Z.mod_small. pose proof (Nat.mod_upper_bound (length rs - 1) (length places) LP). lia.
  - rewrite skipn_app, to_be_length, Nat.sub_diag, skipn_all2 by (rewrite to_be_length; lia). reflexivity.
  - apply chunks_concat; auto. eapply Forall_impl; [|exact S]. cbn. tauto.
Qed.

(** What a reader for such files has to give for [latest_read]. *)
Lemma newest_of {R} (read : bytes -> res R) pw w places rs newest records : (0 < w)%nat -> in_use pw w places rs ->
  newest = be (sub (indexed_file pw places rs) 0 pw) ->
  map_res read (chunks w (skipn pw (indexed_file pw places rs))) = Ok records ->
  newest = Z.of_nat ((length rs - 1) mod length places) /\ length records = length places /\ latest read rs newest records.
Proof.
  intros W I E M. destruct (file_parts pw w places rs W I) as (_ & _ & B & K & C). rewrite B in E. split; [exact E|].
  destruct I as (_ & _ & NP & NR & _). apply (latest_read read places); auto. rewrite K, C in M. now apply map_res_ok.
Qed.

(** ** C146 *)

(** Places, conditions (read whatever the records hold). *)
Theorem C146_total : forall places rs,
  (in_use 1 10 places rs -> exists x, unmarshal_places (indexed_file 1 places rs) = Ok x /\
     ps_newest x = Z.of_nat ((length rs - 1) mod length places) /\ length (ps_records x) = length places /\
     latest unmarshal_place rs (ps_newest x) (ps_records x)) /\
  (in_use 2 21 places rs -> exists x, unmarshal_places_g2 (indexed_file 2 places rs) = Ok x /\
     ps2_newest x = Z.of_nat ((length rs - 1) mod length places) /\ length (ps2_records x) = length places /\
     latest unmarshal_place_g2 rs (ps2_newest x) (ps2_records x)) /\
  (in_use 2 5 places rs -> exists x, unmarshal_conditions_g2 (indexed_file 2 places rs) = Ok x /\
     co2_newest x = Z.of_nat ((length rs - 1) mod length places) /\ length (co2_records x) = length places /\
     latest unmarshal_spec_cond rs (co2_newest x) (co2_records x)).
Proof.
  intros places rs. split; [|split]; intros I.
  - destruct (file_parts 1 10 places rs ltac:(lia) I) as (B & L & _). set (d := indexed_file 1 places rs) in *.
    unfold unmarshal_places. rewrite long_guard by lia. eexists. split; [reflexivity|]. cbn [ps_newest ps_records].
    apply (newest_of unmarshal_place 1 10); auto; try lia; fold d.
    apply (map_total unmarshal_place append_place 10 (fun c => mkPlace c None 0 None 0 None [] 0));
        auto using place_implements, bytes_ok_skipn; lia.
  - destruct (file_parts 2 21 places rs ltac:(lia) I) as (B & L & _). set (d := indexed_file 2 places rs) in *.
    unfold unmarshal_places_g2. rewrite long_guard by lia. eexists. split; [reflexivity|]. cbn [ps2_newest ps2_records].
    apply (newest_of unmarshal_place_g2 2 21); auto; try lia; fold d.
    apply (map_total unmarshal_place_g2 append_place_g2 21 (fun c => mkPlace2 c None 0 None 0 None [] 0 None));
      auto using place_g2_implements, bytes_ok_skipn; lia.
  - destruct (file_parts 2 5 places rs ltac:(lia) I) as (B & L & _). set (d := indexed_file 2 places rs) in *.
    unfold unmarshal_conditions_g2. rewrite long_guard by lia. eexists. split; [reflexivity|]. cbn [co2_newest co2_records].
    apply (newest_of unmarshal_spec_cond 2 5); auto; try lia; fold d.
    apply (collect_ok_total _ append_spec_cond 5); [apply spec_cond_implements|apply chunks_ok; [lia|auto using bytes_ok_skipn]|apply chunks_each; lia].
Qed.

(** Vehicles and positions, if the file is read at all. *)
Theorem C146_accepted : forall places rs,
  (forall cm x, in_use 2 31 places rs -> unmarshal_vehicles cm (indexed_file 2 places rs) = Ok x ->
     vs_newest x = Z.of_nat ((length rs - 1) mod length places) /\ length (vs_records x) = length places /\
     latest (unmarshal_card_vehicle cm) rs (vs_newest x) (vs_records x)) /\
  (forall cm x, in_use 2 48 places rs -> unmarshal_vehicles_g2 cm (indexed_file 2 places rs) = Ok x ->
     vs2_newest x = Z.of_nat ((length rs - 1) mod length places) /\ length (vs2_records x) = length places /\
     latest (unmarshal_card_vehicle_g2 cm) rs (vs2_newest x) (vs2_records x)) /\
  (forall x, in_use 2 18 places rs -> unmarshal_gnss_places (indexed_file 2 places rs) = Ok x ->
     gps_newest x = Z.of_nat ((length rs - 1) mod length places) /\ length (gps_records x) = length places /\
     latest unmarshal_gnss_record rs (gps_newest x) (gps_records x)).
Proof.
  intros places rs. split; [|split].
  - intros cm x I U. unfold unmarshal_vehicles in U. apply bind_ok in U as ([] & _ & U). apply bind_ok in U as (l & M & U).
    apply Ok_inj in U. subst x. cbn [vs_newest vs_records]. apply (newest_of _ 2 31); auto. lia.
  - intros cm x I U. unfold unmarshal_vehicles_g2 in U. apply bind_ok in U as ([] & _ & U). apply bind_ok in U as (l & M & U).
    apply Ok_inj in U. subst x. cbn [vs2_newest vs2_records]. apply (newest_of _ 2 48); auto. lia.
  - intros x I U. unfold unmarshal_gnss_places in U. apply bind_ok in U as ([] & _ & U). apply bind_ok in U as ([] & _ & U).
    apply bind_ok in U as (l & C & U). apply bind_ok in U as (rr & M & U). apply Ok_inj in U. subst x. cbn [gps_newest gps_records].
    destruct (scan_fixed_chunks 18 (skipn 2 (indexed_file 2 places rs))) as (l' & C' & N). { pose proof max_eq. lia. }
    rewrite C in C'. apply Ok_inj in C'. subst l'. rewrite map_res_fst, N in M.
    apply (newest_of _ 2 18); auto. lia.
Qed.

(** Vehicle units, in a file of at most 409 records. *)
Theorem C146_units_partial : forall places rs x, in_use 2 10 places rs -> (length places <= 409)%nat ->
  unmarshal_units_used (indexed_file 2 places rs) = Ok x ->
  uu_newest x = Z.of_nat ((length rs - 1) mod length places) /\ length (uu_records x) = length places /\
  latest (fun c => unmarshal_unit_record (c, c)) rs (uu_newest x) (uu_records x).
Proof.
  intros places rs x I Q U. destruct (file_parts 2 10 places rs ltac:(lia) I) as (B & L & _).
  unfold unmarshal_units_used in U. apply bind_ok in U as ([] & _ & U). apply bind_ok in U as ([] & _ & U).
  apply bind_ok in U as (l & C & U). apply bind_ok in U as (rr & M & U). apply Ok_inj in U. subst x. cbn [uu_newest uu_records].
  rewrite scan_safe_unchanged in C; [|lia|lia|apply (scan_safe_whole 10 _ (length places)); rewrite ?skipn_length; lia].
  apply Ok_inj in C. subst l. rewrite map_res_pairs in M. apply (newest_of _ 2 10); auto. lia.
Qed.

(** With more records, a record of the message can be another one than was stored. *)
Definition units_places : list bytes := repeat (repeat 0 10) 410.
Definition units_stored : list bytes := map (fun i => unit_rec (Z.of_nat i)) (seq 0 410).

Lemma unit_rec_bytes i : bytes_ok (unit_rec i) /\ length (unit_rec i) = 10%nat.
Proof.
  split; [|reflexivity]. assert (M : byte_ok (i mod 256)) by (apply Z.mod_pos_bound; lia).
  unfold unit_rec, bytes_ok. repeat (apply Forall_cons; [first [exact M|unfold byte_ok; lia]|]). constructor.
Qed.

Lemma units_in_use : in_use 2 10 units_places units_stored.
Proof.
  unfold in_use. split; [|split; [|split; [|split]]].
  - apply Forall_forall. intros r I. apply repeat_spec in I. subst r. split; [|reflexivity]. repeat constructor; lia.
  - apply Forall_map, Forall_forall. intros i _. apply unit_rec_bytes.
  - unfold units_places. intros E. apply (f_equal (@length bytes)) in E. rewrite repeat_length in E. discriminate E.
  - unfold units_stored. intros E. apply (f_equal (@length bytes)) in E. rewrite map_length, seq_length in E. discriminate E.
  - unfold units_places. rewrite repeat_length. vm_compute. congruence.
Qed.

Theorem C146_units_refuted : exists places rs x, in_use 2 10 places rs /\ unmarshal_units_used (indexed_file 2 places rs) = Ok x /\
  ~ latest (fun c => unmarshal_unit_record (c, c)) rs (uu_newest x) (uu_records x).
Proof.
  exists units_places, units_stored.
  assert (U : exists x, unmarshal_units_used (indexed_file 2 units_places units_stored) = Ok x /\
    uu_newest x = 409 /\ length (uu_records x) = 410%nat /\ nth_error (uu_records x) 0 <>
      match unmarshal_unit_record (nth 0 units_stored [], nth 0 units_stored []) with Ok r => Some r | _ => None end).
  { eexists. split; [vm_compute; reflexivity|]. vm_compute. repeat split; congruence. }
  destruct U as (x & U & N & L & D). exists x. split; [|split; [exact U|]].
  - exact units_in_use.
  - intros Q. unfold latest in Q. rewrite N, L in Q. destruct (Q 409%nat) as (r & R1 & R2).
    { unfold units_stored. rewrite map_length, seq_length. lia. } { lia. }
    replace (length units_stored - 1 - 409)%nat with 0%nat in R1 by (unfold units_stored; rewrite map_length, seq_length; reflexivity).
    change ((Z.to_nat 409 + 410 - 409) mod 410)%nat with 0%nat in R2. rewrite R1 in D. congruence.
Qed.

(** Three places, five records: the last two went to the first two places. *)
Definition pl (n : Z) : bytes := [n; 0; 0; 0; 1; 17; 3; 0; 0; n].
Example C146_example :
  let rs := [pl 1; pl 2; pl 3; pl 4; pl 5] in
  in_use 1 10 (repeat (pl 0) 3) rs /\ indexed_file 1 (repeat (pl 0) 3) rs = [1] ++ pl 4 ++ pl 5 ++ pl 3 /\
  option_map (fun x => (ps_newest x, map pl_odometer (ps_records x)))
    (match unmarshal_places (indexed_file 1 (repeat (pl 0) 3) rs) with Ok x => Some x | _ => None end) = Some (1, [4; 5; 3]).
Proof.
  cbv zeta. split; [|split; reflexivity]. unfold in_use. split; [|split; [|split; [|split]]]; try discriminate.
  - repeat constructor; lia.
  - repeat constructor; lia.
Qed.

(** The files of the other theorems are read too: two places, three records of zeros and an odometer. *)
Example C146_example_accepted :
  let v n := repeat 0 5 ++ [n] ++ repeat 0 25 in let v2 n := repeat 0 5 ++ [n] ++ repeat 0 25 ++ repeat 65 17 in
  let g n := repeat 0 17 ++ [n] in
  map cv_odo_end (match unmarshal_vehicles (fun _ b => b) (indexed_file 2 (repeat (v 0) 2) [v 1; v 2; v 3]) with Ok x => vs_records x | _ => [] end) = [3; 2] /\
  length (match unmarshal_vehicles_g2 (fun _ b => b) (indexed_file 2 (repeat (v2 0) 2) [v2 1; v2 2; v2 3]) with Ok x => vs2_records x | _ => [] end) = 2%nat /\
  map gr_odometer (match unmarshal_gnss_places (indexed_file 2 (repeat (g 0) 2) [g 1; g 2; g 3]) with Ok x => gps_records x | _ => [] end) = [3; 2] /\
  map ur_device (match unmarshal_units_used (indexed_file 2 (repeat (unit_rec 0) 2) [unit_rec 1; unit_rec 2; unit_rec 3]) with Ok x => uu_records x | _ => [] end) = [[3]; [2]].
Proof. cbv zeta. repeat split; vm_compute; reflexivity. Qed.

Print Assumptions C146_total.
Print Assumptions C146_accepted.
Print Assumptions C146_units_partial.
Print Assumptions C146_units_refuted.
