(** Property C121: activities written from their days. *)

From Verif Require Import Base Enums DDScalar P_Scalar Chunks Utf8 DDString DDRecord RawTypes Infer CardBasic CardRecords
  CardIdent CardActivity DriverCard Props_Sizes.

(** How many bytes a day takes: as many as it declares, or as it needs. *)
Definition taken (d : day) : nat :=
  if day_valid d then if 0 <? day_len d then Z.to_nat (day_len d) else (12 + 2 * length (day_changes d))%nat
  else length (day_raw d).

(** What is written for a day: the sizes of the day before and of the day itself, date,
    counter, distance and all changes, followed by zeros and cut to the bytes it takes. *)
Definition shown (before : nat) (d : day) (b : bytes) : Prop :=
  if day_valid d then
    exists t c cs, append_time (day_date d) = Ok t /\ append_bcd_string (day_counter d) = Ok c /\
      Forall2 (fun x y => append_activity_change x = Ok y) (day_changes d) cs /\
      b = firstn (taken d) (to_be 2 (Z.of_nat before) ++ to_be 2 (Z.of_nat (taken d)) ++ t ++ c ++
                            to_be 2 (day_distance d) ++ concat cs ++ zeros (taken d))
  else b = day_raw d /\ b <> [].

(** Days one after the other *)
Fixpoint in_a_row (before : nat) (l : list day) (b : bytes) : Prop :=
  match l with
  | [] => b = []
  | d :: t => exists x y, b = x ++ y /\ length x = taken d /\ shown before d x /\ in_a_row (taken d) t y
  end.

Lemma change_size x b : append_activity_change x = Ok b -> length b = 2%nat.
Proof. unfold append_activity_change. intros E. inv_bind E. inv_bind E. inv_bind E. inv_ok. apply to_be_length. Qed.

Lemma concat_parts {A} (f : A -> res bytes) : forall l b, concat_res f l = Ok b ->
  exists cs, Forall2 (fun x y => f x = Ok y) l cs /\ b = concat cs.
Proof.
  induction l as [|a l IH]; intros b E; cbn [concat_res] in E.
  - inv_ok. exists []. split; [constructor|reflexivity].
  - inv_bind E. inv_bind E. inv_ok. destruct (IH _ E1) as (cs & P & ->). exists (a0 :: cs). split; [now constructor|reflexivity].
Qed.

Lemma firstn_zeros n k m (l : bytes) : (n <= length l + k)%nat -> (k <= m)%nat ->
  firstn n (l ++ zeros k) = firstn n (l ++ zeros m).
Proof.
  intros L M. rewrite !firstn_app. f_equal. unfold zeros.
  assert (H : forall a b, (a <= b)%nat -> firstn a (repeat 0 b) = repeat 0 a).
  { induction a as [|a IH]; intros [|b] Hb; [reflexivity|reflexivity|lia|]. cbn. f_equal. apply IH. lia. }
  rewrite !H by lia. reflexivity.
Qed.

Lemma marshal_shown d before b : day_valid d = true -> marshal_day d before (taken d) = Ok b ->
  shown before d (firstn (taken d) b) /\ (taken d <= length b)%nat.
Proof.
  intros V E. unfold marshal_day in E. inv_bind E. inv_bind E. inv_bind E. apply concat_parts in E2 as (cs & P & ->).
  cbv zeta in E. inv_ok. unfold shown. rewrite V. split; [|rewrite app_length, zeros_length; lia].
  exists a, a0, cs. split; [exact E0|]. split; [exact E1|]. split; [exact P|].
  rewrite firstn_zeros with (m := taken d) by lia. now rewrite <- !app_assoc.
Qed.

Lemma taken_size d n : record_size d = Ok n -> n = taken d. Proof. apply day_measure. Qed.

Lemma write_row : forall l buf pos prev out, (pos + list_sum (map taken l))%nat = length buf ->
  write_days buf pos prev l = Ok out ->
  exists b, out = firstn pos buf ++ b /\ in_a_row prev l b.
Proof.
  induction l as [|d l IH]; intros buf pos prev out L E; cbn [write_days] in E.
  - inv_ok. exists []. cbn in L. rewrite firstn_all2, app_nil_r by lia. split; reflexivity.
  - cbn [map list_sum fold_right] in L. inv_bind E. inv_bind E. pose proof (taken_size _ _ E0) as ->.
    assert (K : shown prev d (firstn (taken d) a0) /\ (taken d <= length a0)%nat).
    { destruct (day_valid d) eqn:V; [now apply marshal_shown|]. inv_ok. unfold record_size in E0. rewrite V in E0.
      unfold shown, taken. rewrite V, firstn_all. split; [|lia]. split; [reflexivity|]. intros G. rewrite G in E0. discriminate E0. }
    destruct K as [K M]. assert (C : length (copy_into buf pos (length buf) a0) = length buf) by (apply copy_into_length; lia).
    apply IH in E as (b & -> & R).
    + exists (firstn (taken d) a0 ++ b). split.
      * rewrite app_assoc. f_equal. unfold copy_into. rewrite firstn_app, firstn_firstn, firstn_length.
        rewrite Nat.min_r, Nat.min_l by lia. f_equal. rewrite firstn_app, !firstn_firstn.
        replace (pos + taken d - pos)%nat with (taken d) by lia. rewrite firstn_length.
        rewrite Nat.min_l by lia. replace (taken d - _)%nat with 0%nat by lia. cbn [firstn]. now rewrite app_nil_r.
      * exists (firstn (taken d) a0), b. split; [reflexivity|]. split; [rewrite firstn_length; lia|]. split; [exact K|exact R].
    + rewrite C. unfold list_sum in *. lia.
Qed.

Lemma cut_whole (n : nat) (l z : bytes) : (length l <= n)%nat -> firstn n (l ++ z) = l ++ firstn (n - length l) z.
Proof. intros H. rewrite firstn_app, firstn_all2 by exact H. reflexivity. Qed.

(** Every change of every day is in a file that is written from its days: ...

    1. the file has the two positions and the days in a row, each cut to the bytes that
       it takes, and nothing else;
    2. a day with a counter of two bytes that declares no size, or one that leaves room
       for its changes, is whole. *)
Theorem C121_days_partial :
  (forall x b, append_content S_activity x = Ok b -> act_raw x = [] ->
     exists r, b = to_be 2 (act_oldest x) ++ to_be 2 (act_newest x) ++ r /\ in_a_row 0 (act_days x) r) /\
  (forall before d b v, shown before d b -> day_valid d = true -> day_counter d = Some (mkBcd v 2) ->
     day_len d <= 0 \/ 12 + 2 * Z.of_nat (length (day_changes d)) <= day_len d ->
     exists t c cs, append_time (day_date d) = Ok t /\ append_bcd v 2 = Ok c /\
       Forall2 (fun x y => append_activity_change x = Ok y) (day_changes d) cs /\
       b = to_be 2 (Z.of_nat before) ++ to_be 2 (Z.of_nat (taken d)) ++ t ++ c ++
           to_be 2 (day_distance d) ++ concat cs ++ zeros (taken d - 12 - 2 * length (day_changes d))).
Proof.
  split.
  - intros x b E N. cbn [append_content append_activity] in E. inv_bind E. inv_ok. rewrite N in E0. cbn [length Nat.ltb Nat.leb] in E0.
    exists a. split; [reflexivity|]. unfold build_ring in E0. inv_bind E0. apply map_sizes in E. subst a0.
    change (map _ (act_days x)) with (map taken (act_days x)) in E0.
    apply write_row in E0 as (b & -> & R); [|rewrite zeros_length; reflexivity]. exact R.
  - intros before d b v H V C L. unfold shown in H. rewrite V in H. destruct H as (t & c & cs & Ht & Hc & Hcs & ->).
    exists t, c, cs. split; [exact Ht|]. rewrite C in Hc. cbn [append_bcd_string bcd_value bcd_length] in Hc.
    destruct (v <? 0); [discriminate Hc|]. split; [exact Hc|]. split; [exact Hcs|].
    assert (Lcs : length (concat cs) = (2 * length (day_changes d))%nat).
    { clear - Hcs. induction Hcs as [|x y l m E _ IH]; [reflexivity|]. cbn [concat length]. rewrite app_length, IH, (change_size _ _ E). lia. }
    assert (Lc : length c = 2%nat) by (apply append_bcd_length in Hc; apply Hc).
    assert (Lt : length t = 4%nat) by (exact (time_size _ _ Ht)).
    assert (M : (12 + 2 * length (day_changes d) <= taken d)%nat). { unfold taken. rewrite V. destruct (Z.ltb_spec 0 (day_len d)); lia. }
    set (w := taken d) in *.
    replace (to_be 2 (Z.of_nat before) ++ to_be 2 (Z.of_nat w) ++ t ++ c ++ to_be 2 (day_distance d) ++ concat cs ++ zeros w)
      with ((to_be 2 (Z.of_nat before) ++ to_be 2 (Z.of_nat w) ++ t ++ c ++ to_be 2 (day_distance d) ++ concat cs) ++ zeros w)
      by (now rewrite <- !app_assoc).
    rewrite cut_whole; rewrite !app_length, !to_be_length, Lt, Lc, Lcs; [|lia].
    rewrite <- !app_assoc. do 6 f_equal. clear. unfold zeros.
    assert (H : forall a b, (a <= b)%nat -> firstn a (repeat 0 b) = repeat 0 a).
    { induction a as [|a IH]; intros [|b] Hb; [reflexivity|reflexivity|lia|]. cbn. f_equal. apply IH. lia. }
    rewrite H by lia. f_equal. lia.
Qed.

(** Two days of a card, the first of them with one change more than it declares room for
    (as after reading it and adding a change): the file is written, and read again the
    first day has only the change that it had.  And a day without a counter: read again
    the distance has become the counter, and the change the distance. *)
Definition change (m : Z) : activity_change := mkAC None 2 false true 4 m.
Definition day_with (len : Z) (t : Z) (c : option bcd_string) (l : list activity_change) : day :=
  mkDay true [] 0 len (Some (mkTs t 0)) c 55 l.
Definition grown : activity :=
  mkAct 0 14 [] [day_with 14 1704067200 (Some (mkBcd 7 2)) [change 0; change 480];
                 day_with 16 1704153600 (Some (mkBcd 8 2)) [change 0; change 600]].
Definition uncounted : activity := mkAct 0 0 [] [day_with 14 1704067200 None [change 480]].

Theorem C121_days_refuted :
  (exists b y, append_content S_activity grown = Ok b /\ unmarshal_activity b = Ok y /\
     map (fun d => map ac_minutes (day_changes d)) (act_days grown) = [[0; 480]; [0; 600]] /\
     map (fun d => map ac_minutes (day_changes d)) (act_days y) = [[0]; [0; 600]]) /\
  (exists b y, append_content S_activity uncounted = Ok b /\ unmarshal_activity b = Ok y /\
     map day_counter (act_days y) = [Some (mkBcd 37 2)] /\ map day_distance (act_days uncounted) = [55] /\
     map day_distance (act_days y) = [4576] /\ map day_changes (act_days y) = [[]]).
Proof. split; eexists; eexists; (split; [vm_compute; reflexivity|]); (split; [vm_compute; reflexivity|]); vm_compute; auto. Qed.

(** The second day above has room; so has the first without a declared size. *)
Example C121_applies :
  (exists b, append_content S_activity grown = Ok b /\ act_raw grown = []) /\
  (exists d, nth_error (act_days grown) 1 = Some d /\ day_valid d = true /\ day_counter d = Some (mkBcd 8 2) /\
     12 + 2 * Z.of_nat (length (day_changes d)) <= day_len d) /\
  (exists b y, append_content S_activity (mkAct 0 16 [] [day_with 0 1704067200 (Some (mkBcd 7 2)) [change 0; change 480];
                 day_with 16 1704153600 (Some (mkBcd 8 2)) [change 0; change 600]]) = Ok b /\ unmarshal_activity b = Ok y /\
     map (fun d => map ac_minutes (day_changes d)) (act_days y) = [[0; 480]; [0; 600]]).
Proof.
  split; [eexists; split; [vm_compute; reflexivity|reflexivity]|].
  split; [eexists; split; [reflexivity|]; split; [reflexivity|]; split; [reflexivity|]; cbn; lia|].
  eexists; eexists; split; [vm_compute; reflexivity|]; split; vm_compute; reflexivity.
Qed.
