(** C140: the limit on concurrent downloads. *)

From Coq Require Import Permutation.
From Verif Require Import Base FetchCerts Props_FetchRun FetchLimit.

Definition is_busy (p : phase) : bool := match p with Busy _ => true | _ => false end.

Definition busy (ps : list phase) : nat := length (filter is_busy ps).

Lemma busy_app a b : busy (a ++ b) = (busy a + busy b)%nat.
Proof. unfold busy. now rewrite filter_app, app_length. Qed.

Lemma busy_cons p b : busy (p :: b) = ((if is_busy p then 1 else 0) + busy b)%nat.
Proof. unfold busy. cbn. destruct (is_busy p); reflexivity. Qed.

(** The semaphore counts the goroutines that run. *)
Definition counted (limit : option nat) (s : group) : Prop :=
  match limit with None => True | Some n => g_sem s = downloads s /\ (downloads s <= n)%nat end.

Lemma move_counted limit s o t : move limit s o t -> counted limit s -> counted limit t.
Proof.
  destruct limit as [n|]; [|intros; exact I]. intros M. unfold counted, downloads. fold is_busy.
  change (fun p : phase => match p with Busy _ => true | _ => false end) with is_busy.
  fold (busy (g_started s)). fold (busy (g_started t)).
  inversion M; subst; cbn [g_sem g_started enter leave has_place] in *; rewrite ?busy_app, ?busy_cons in *; cbn [is_busy] in *;
    change (busy []) with 0%nat in *; lia.
Qed.

Lemma moves_counted limit n s l t : moves limit n s l t -> counted limit s -> counted limit t.
Proof. induction 1 as [|n s o s' l t M _ IH]; auto. intros C. apply IH. now apply (move_counted limit s o). Qed.

Lemma new_counted limit rows : counted limit (new_group rows).
Proof. destruct limit as [n|]; cbn; [|exact I]. unfold downloads. cbn. lia. Qed.

(** Moves that are left. *)
Definition phase_left (p : phase) : nat := match p with Busy l => length l + 2 | Freed => 1 | Gone => 0 end.

Definition moves_left (s : group) : nat :=
  (list_sum (map phase_left (g_started s)) + list_sum (map (fun w => length w + 3) (g_todo s)) + if g_returned s then 0 else 1)%nat.

Lemma sum_cons x l : list_sum (x :: l) = (x + list_sum l)%nat.
Proof. reflexivity. Qed.

Lemma move_left limit s o t : move limit s o t -> moves_left s = S (moves_left t).
Proof.
  intros M. unfold moves_left.
  inversion M; subst; cbn [g_started g_todo g_returned]; rewrite ?map_app, ?list_sum_app; cbn [map]; rewrite ?list_sum_app, ?sum_cons; cbn [phase_left length]; change (list_sum []) with 0%nat; lia.
Qed.

Lemma moves_are_left limit n s l t : moves limit n s l t -> moves_left s = (n + moves_left t)%nat.
Proof. induction 1 as [|n s o s' l t M _ IH]; [reflexivity|]. apply move_left in M. lia. Qed.

(** What the goroutines and the rows still have to do. *)
Definition to_do (s : group) : list (list step) :=
  map (fun p => match p with Busy l => l | _ => [] end) (g_started s) ++ g_todo s.

Lemma moves_interleaving limit n s l t : moves limit n s l t ->
  (g_returned s = true -> g_todo s = [] /\ Forall (fun p => p = Gone) (g_started s)) ->
  g_returned t = true -> interleaving (to_do s) l.
Proof.
  assert (GONE : forall ps, Forall (fun p => p = Gone) ps -> Forall (fun w : list step => w = []) (map (fun p => match p with Busy l => l | _ => [] end) ps)).
  { intros ps G. induction G as [|p ps -> G IH]; constructor; auto. }
  induction 1 as [s|n s o s' l t M MS IH]; intros R T.
  - destruct (R T) as [E G]. constructor. unfold to_do. rewrite E, app_nil_r. now apply GONE.
  - assert (R' : g_returned s' = true -> g_todo s' = [] /\ Forall (fun p => p = Gone) (g_started s')).
    { clear - M R. inversion M; subst; cbn [g_returned g_todo g_started] in *; intros Q; try discriminate Q; [| | |auto];
        destruct (R Q) as [_ G]; apply Forall_app in G as [_ G]; apply Forall_cons_iff in G as [G _]; discriminate G. }
    specialize (IH R' T). clear - M IH GONE. unfold to_do in *.
    inversion M; subst; cbn [g_started g_todo] in *; rewrite ?map_app in *; cbn [map] in *; rewrite <- ?app_assoc in *; cbn [List.app] in *.
    + exact IH.
    + now apply I_step.
    + exact IH.
    + exact IH.
    + exact IH.
Qed.

(** After Wait has returned nothing is left. *)
Definition settled (s : group) : Prop := g_returned s = true -> g_todo s = [] /\ Forall (fun p => p = Gone) (g_started s).

Lemma move_settled limit s o t : move limit s o t -> settled s -> settled t.
Proof.
  intros M R. unfold settled in *. inversion M; subst; cbn [g_returned g_todo g_started] in *; intros Q; try discriminate Q; [| | |auto];
    destruct (R Q) as [_ G]; apply Forall_app in G as [_ G]; apply Forall_cons_iff in G as [G _]; discriminate G.
Qed.

Lemma moves_settled limit n s l t : moves limit n s l t -> settled s -> settled t.
Proof. induction 1 as [|n s o s' l t M _ IH]; auto. intros C. apply IH. now apply (move_settled limit s o). Qed.

Lemma settled_left s : settled s -> g_returned s = true -> moves_left s = 0%nat.
Proof.
  intros S R. destruct (S R) as [E G]. unfold moves_left. rewrite E, R. cbn. rewrite !Nat.add_0_r.
  induction G as [|p ps -> G IH]; [reflexivity|exact IH].
Qed.

Lemma find_phase (P : phase -> bool) ps : existsb P ps = true -> exists a p b, ps = a ++ p :: b /\ P p = true.
Proof.
  intros E. apply existsb_exists in E as (p & I & Q). apply in_split in I as (a & b & ->). eauto.
Qed.

Lemma none_busy ps : existsb is_busy ps = false -> busy ps = 0%nat.
Proof.
  unfold busy. induction ps as [|p ps IH]; [reflexivity|]. cbn. destruct (is_busy p); [discriminate|]. exact IH.
Qed.

Lemma progress limit s : limit <> Some 0%nat -> counted limit s -> g_returned s = false -> exists o t, move limit s o t.
Proof.
  destruct s as [k ps todo r]. cbn [g_returned]. intros L C ->.
  destruct (existsb is_busy ps) eqn:B.
  - apply find_phase in B as (a & p & b & -> & Q). destruct p as [[|x l]| |]; try discriminate Q; do 2 eexists; [apply M_leave|apply M_work].
  - destruct (existsb (fun p => match p with Freed => true | _ => false end) ps) eqn:D.
    + apply find_phase in D as (a & p & b & -> & Q). destruct p as [l| |]; try discriminate Q. do 2 eexists. apply M_done.
    + destruct todo as [|w rest].
      * do 2 eexists. apply M_wait. clear - B D. induction ps as [|p ps IH]; [constructor|]. cbn in B, D.
        destruct p as [l| |]; try discriminate. constructor; auto.
      * do 2 eexists. apply M_go. destruct limit as [n|]; [|exact I]. cbn [counted has_place] in *. destruct C as [C _]. cbn [g_sem] in C.
        unfold downloads in C. cbn [g_started] in C. change (fun p : phase => match p with Busy _ => true | _ => false end) with is_busy in C.
        fold (busy ps) in C. rewrite (none_busy ps B) in C. destruct n; [congruence|lia].
Qed.

Lemma limit_nonzero c : c <> 0 -> limit_of c <> Some 0%nat.
Proof. unfold limit_of. destruct (Z.ltb_spec c 0); [discriminate|]. intros N E. injection E as E. lia. Qed.

(** There are never more downloads at a time than asked for. *)
Theorem C140_limit_partial : forall concurrency rows n l s, 0 <= concurrency ->
  moves (limit_of concurrency) n (new_group rows) l s -> Z.of_nat (downloads s) <= concurrency.
Proof.
  intros c rows n l s P M. apply moves_counted in M; [|apply new_counted]. unfold limit_of in M.
  destruct (Z.ltb_spec c 0); [lia|]. destruct M as [_ M]. lia.
Qed.
Print Assumptions C140_limit_partial.

(** Unless the limit is zero, every run comes to its end, after a number of moves that does not
    depend on the schedule, and then all that the rows ask for was done, in some order that keeps
    the order of each. *)
Theorem C140_ends_partial : forall concurrency rows, concurrency <> 0 ->
  let all := (list_sum (map (fun w => length w + 3) rows) + 1)%nat in
  (forall n l s, moves (limit_of concurrency) n (new_group rows) l s ->
     (n <= all)%nat /\ (g_returned s = true <-> n = all) /\
     (g_returned s = false -> exists o t, move (limit_of concurrency) s o t) /\
     (g_returned s = true -> interleaving rows l)) /\
  (exists l s, moves (limit_of concurrency) all (new_group rows) l s /\ g_returned s = true).
Proof.
  intros c rows N all.
  assert (A : moves_left (new_group rows) = all) by reflexivity.
  assert (S0 : settled (new_group rows)) by (intros Q; discriminate Q).
  assert (FIN : forall k s, counted (limit_of c) s -> settled s -> moves_left s = k -> exists l t, moves (limit_of c) k s l t /\ g_returned t = true).
  { induction k as [|k IH]; intros s C S E.
    - exists [], s. split; [constructor|]. unfold moves_left in E. destruct (g_returned s); [reflexivity|lia].
    - destruct (g_returned s) eqn:R; [rewrite (settled_left s S R) in E; discriminate E|].
      destruct (progress (limit_of c) s (limit_nonzero c N) C R) as (o & s' & M).
      pose proof (move_left _ _ _ _ M). destruct (IH s' (move_counted _ _ _ _ M C) (move_settled _ _ _ _ M S)) as (l & t & ML & T); [lia|].
      eexists; exists t; split; [eapply Moves_more; eassumption|exact T]. }
  split; [|apply FIN; [apply new_counted|exact S0|exact A]].
  intros n l s M. pose proof (moves_are_left _ _ _ _ _ M) as E. rewrite A in E.
  pose proof (moves_settled _ _ _ _ _ M S0) as S. pose proof (moves_counted _ _ _ _ _ M (new_counted _ _)) as C.
  split; [lia|]. split; [split|split].
  - intros R. rewrite (settled_left s S R) in E. lia.
  - intros ->. destruct (g_returned s) eqn:R; [reflexivity|]. exfalso. unfold moves_left in E. rewrite R in E. lia.
  - intros R. now apply progress; [apply limit_nonzero| |].
  - intros R. change rows with (to_do (new_group rows)). now apply (moves_interleaving _ _ _ _ _ M).
Qed.
Print Assumptions C140_ends_partial.

Lemma one_at_a_time n s l t : moves (Some 1%nat) n s l t -> counted (Some 1%nat) s -> settled s -> g_returned t = true -> l = concat (to_do s).
Proof.
  assert (IDLE : forall a, busy a = 0%nat -> concat (map (fun p => match p with Busy l => l | _ => [] end) a) = []).
  { induction a as [|p a IH]; [reflexivity|]. rewrite busy_cons. destruct p as [w| |]; cbn [is_busy]; [lia| |]; intros E; cbn; apply IH; exact E. }
  induction 1 as [s|n s o s' l t M MS IH]; intros C S T.
  - destruct (S T) as [E G]. unfold to_do. rewrite E, app_nil_r. symmetry. apply IDLE.
    induction G as [|p ps -> G IHG]; [reflexivity|exact IHG].
  - specialize (IH (move_counted _ _ _ _ M C) (move_settled _ _ _ _ M S) T). subst l. clear - M C IDLE.
    destruct C as [_ C]. unfold downloads in C. change (fun p : phase => match p with Busy _ => true | _ => false end) with is_busy in C.
    fold (busy (g_started s)) in C. unfold to_do.
    inversion M; subst; cbn [g_started g_todo] in *; rewrite ?map_app, ?concat_app; cbn [map concat]; rewrite ?app_nil_r, <- ?app_assoc; try reflexivity.
    rewrite busy_app, busy_cons in C. cbn [is_busy] in C. rewrite (IDLE a) by lia. reflexivity.
Qed.

(** With a limit of one the rows are done one after the other, so that the result does not depend on
    the schedule. *)
Theorem C140_one : forall rows n l s, moves (limit_of 1) n (new_group rows) l s -> g_returned s = true -> l = concat rows.
Proof.
  intros rows n l s M R. apply one_at_a_time in M; [|apply new_counted|intros Q; discriminate Q|exact R]. exact M.
Qed.
Print Assumptions C140_one.

(** With a limit of zero the tool waits for ever before its first download, and below zero all rows may be
    downloaded at the same time. *)
Theorem C140_limit_refuted :
  (forall rows, rows <> [] ->
     (forall n l s, moves (limit_of 0) n (new_group rows) l s -> n = 0%nat) /\ g_returned (new_group rows) = false) /\
  (forall concurrency rows, concurrency < 0 -> exists n s, moves (limit_of concurrency) n (new_group rows) [] s /\ downloads s = length rows).
Proof.
  split.
  - intros rows N. split; [|reflexivity]. intros n l s M. destruct rows as [|w rows]; [congruence|].
    inversion M as [|n' s0 o s' l' t MV MR]; [reflexivity|]. exfalso. clear - MV. unfold new_group in MV. cbn in MV.
    inversion MV; try match goal with H : ?a ++ _ = [] |- _ => destruct a; discriminate H end.
    match goal with H : has_place _ _ |- _ => cbn in H; lia end.
  - intros c rows N. unfold limit_of. destruct (Z.ltb_spec c 0); [|lia].
    enough (K : forall ps, exists n s, moves None n (mkGroup 0 ps rows false) [] s /\ downloads s = (busy ps + length rows)%nat) by exact (K []).
    induction rows as [|w rows IH]; intros ps.
    + exists 0%nat, (mkGroup 0 ps [] false). split; [constructor|]. cbn. unfold downloads. cbn [g_started].
      change (fun p : phase => match p with Busy _ => true | _ => false end) with is_busy. fold (busy ps). lia.
    + destruct (IH (ps ++ [Busy w])) as (n & s & M & D). exists (S n), s. split.
      * refine (Moves_more None n _ None _ [] s _ M). apply (M_go None 0 ps w rows). exact I.
      * rewrite D, busy_app, busy_cons. cbn. change (busy []) with 0%nat. lia.
Qed.
Print Assumptions C140_limit_refuted.

(** Three rows, one of them without a certificate, with a limit of two: a run in which two
    downloads overlap. *)
Example C140_example :
  let rows := [worker (Some (mkJob [1] [2] (mkEntry [] [] [] [] [] [1]))); worker None; worker (Some (mkJob [1] [3] (mkEntry [] [] [] [] [] [1])))] in
  exists n l s, moves (limit_of 2) n (new_group rows) l s /\ downloads s = 2%nat /\ l = [Truncate [1]] /\ n = 3%nat.
Proof.
  intros rows. exists 3%nat. eexists. eexists. split; [|split; [|split; reflexivity]].
  - eapply (Moves_more _ _ _ None); [apply M_go; cbn; lia|].
    eapply (Moves_more _ _ _ (Some (Truncate [1]))); [apply (M_work _ _ [])|].
    eapply (Moves_more _ _ _ None); [apply M_go; cbn; lia|]. apply Moves_none.
  - reflexivity.
Qed.
