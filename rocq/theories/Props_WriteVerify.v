(** C135: a card is written while it is verified. *)

From Verif Require Import Base Enums Chunks DDScalar RawTypes RawCard Infer Cert P_Cert DriverCard P_Driver Vu Verify Api P_Dump.
From Verif Require Import Props_RawCard Props_Dump Props_Driver Props_Cert Props_Verify VerifyShared VerifyAtOnce Props_VerifyAtOnce WriteVerify.
From Verif Require Props_VerifyShared.

Section Card.
Variables (k : crypto) (c : driver_card).

Lemma change_frame d f : (forall a, rsa_raw (f a) = rsa_raw a) -> card_frame c d -> card_frame c (change d f).
Proof.
  intros R F0. unfold change. destruct (card_certificate d) as [a|] eqn:A; [|exact F0].
  apply store_rsa_frame; [exact F0|congruence|]. rewrite A. apply R.
Qed.

Lemma go_on_frame r d p : card_frame c d -> card_frame c (fst (go_on k r d p)).
Proof.
  intros F0. destruct p; cbn [go_on fst]; try (apply change_frame; [reflexivity|exact F0]); try exact F0.
  - destruct (dc_has d Gen1); [|exact F0]. destruct (card_certificate d) as [x|]; [|exact F0].
    destruct (obtain_rsa_ca k (Some r) d x) as [ca|?|]; try exact F0.
    destruct (verify_rsa_with_ca k (unmarked x) (Some ca)) as [[[]|?|] b]; exact F0.
  - destruct (dc_has d Gen2); [|exact F0]. destruct (card_sign_certificate d) as [y|]; [|exact F0].
    destruct (obtain_ecc_ca (Some r) d y) as [ca|?|]; try exact F0. destruct (verify_ecc k (unmarked_ecc y) ca); exact F0.
  - destruct (card_sign_certificate d) as [y|] eqn:Y; [|exact F0]. now apply store_ecc_frame.
Qed.

(** What is left to write makes, with the bytes so far, the whole. *)
Definition on_course (g : goroutine) : Prop :=
  match g with
  | Verifies _ _ => True
  | Writes rest out => marshal_driver_card (Some c) = let* b := concat_res (write_slot c) rest in Ok (out ++ b)
  | Written o => marshal_driver_card (Some c) = o
  end.

Definition left (g : goroutine) : nat :=
  match g with Verifies _ _ => 0 | Writes rest _ => S (length rest) | Written _ => 0 end.

Definition writer (g : goroutine) : Prop := match g with Verifies _ _ => False | _ => True end.

Lemma step_course d g : card_frame c d -> on_course g ->
  card_frame c (fst (step_of k d g)) /\ on_course (snd (step_of k d g)) /\ (left (snd (step_of k d g)) <= left g - 1)%nat /\
  (writer g -> writer (snd (step_of k d g))).
Proof.
  intros F0 O. destruct g as [r p|rest out|o]; cbn [step_of].
  - pose proof (go_on_frame r d p F0) as F1. destruct (go_on k r d p) as [d' p']. cbn. auto.
  - cbn [fst snd]. split; [exact F0|]. destruct rest as [|p rest]; cbn [write_on].
    + cbn [on_course concat_res bind] in *. rewrite app_nil_r in O. repeat split; auto.
    + rewrite (write_frame c d p F0). cbn [on_course concat_res] in O.
      destruct (write_slot c p) as [b|e|]; cbn [bind] in O; cbn [on_course left length]; repeat split; auto; try lia.
      rewrite O. destruct (concat_res (write_slot c) rest) as [b'|?|]; cbn [bind]; auto. now rewrite app_assoc.
  - cbn [fst snd left]. split; [exact F0|]. split; [exact O|]. split; [lia|auto].
Qed.

Definition all_course (s : driver_card * list goroutine) : Prop :=
  card_frame c (fst s) /\ forall i g, nth_error (snd s) i = Some g -> on_course g.

Lemma turn_course s i : all_course s -> all_course (turn_of k s i) /\
  forall j g, nth_error (snd s) j = Some g -> writer g -> exists g', nth_error (snd (turn_of k s i)) j = Some g' /\ writer g' /\
    (left g' <= left g - (if Nat.eq_dec i j then 1 else 0))%nat.
Proof.
  intros [F0 T]. destruct s as [d gs]. cbn [fst snd] in *. unfold turn_of.
  destruct (nth_error gs i) as [g|] eqn:E.
  - destruct (step_course d g F0 (T _ _ E)) as (F1 & T1 & L1 & W1). destruct (step_of k d g) as [d' g']. cbn [fst snd] in *. split.
    + split; [exact F1|]. cbn [fst snd]. intros j g1. rewrite Props_VerifyShared.update_nth. destruct (Nat.eq_dec i j) as [<-|N].
      * rewrite E. intros [= <-]. exact T1.
      * intros E1. eapply T. exact E1.
    + intros j g1 E1 W. rewrite Props_VerifyShared.update_nth. destruct (Nat.eq_dec i j) as [<-|N].
      * rewrite E in *. injection E1 as <-. exists g'. split; [reflexivity|]. split; [exact (W1 W)|lia].
      * exists g1. split; [exact E1|]. split; [exact W|lia].
  - split; [split; assumption|]. cbn [snd]. intros j g1 E1 W. exists g1. split; [exact E1|]. split; [exact W|].
    destruct (Nat.eq_dec i j) as [<-|N]; [congruence|lia].
Qed.

Lemma turns_course turns : forall s, all_course s -> all_course (fold_left (turn_of k) turns s) /\
  forall j g, nth_error (snd s) j = Some g -> writer g -> exists g', nth_error (snd (fold_left (turn_of k) turns s)) j = Some g' /\ writer g' /\
    (left g' <= left g - count_occ Nat.eq_dec turns j)%nat.
Proof.
  induction turns as [|i turns IH]; intros s T.
  - split; [exact T|]. intros j g E W. exists g. cbn. split; [exact E|]. split; [exact W|lia].
  - destruct (turn_course s i T) as [T' R]. destruct (IH _ T') as [T'' R']. split; [exact T''|].
    intros j g E W. destruct (R _ _ E W) as (g' & E' & W' & L). destruct (R' _ _ E' W') as (g'' & E'' & W'' & L').
    exists g''. split; [exact E''|]. split; [exact W''|]. cbn [count_occ]. destruct (Nat.eq_dec i j); lia.
Qed.
End Card.

(** Whatever the order of the steps, every goroutine that writes the message ends with
    the bytes, or the error, of writing it before any verification, and ends after 28
    turns; and at every time the message can be written to the same result. *)
Theorem C135_write_while_verifying : forall k c tasks turns,
  marshal_driver_card (Some (fst (together k c tasks turns))) = marshal_driver_card (Some c) /\
  forall i, nth_error tasks i = Some None -> exists g, nth_error (snd (together k c tasks turns)) i = Some g /\
    (forall o, g = Written o -> o = marshal_driver_card (Some c)) /\
    ((28 <= count_occ Nat.eq_dec turns i)%nat -> exists o, g = Written o).
Proof.
  intros k c tasks turns. unfold together.
  destruct (turns_course k c turns (c, map begin tasks)) as ((F1 & T1) & R).
  { split; [apply frame_refl|]. cbn [snd]. intros i g E. apply nth_error_In, in_map_iff in E as (o & <- & _).
    destruct o as [r|]; cbn [begin on_course]; [exact I|]. cbn [marshal_driver_card]. destruct (concat_res (write_slot c) marshal_order); reflexivity. }
  split; [now apply marshal_frame|]. intros i E.
  assert (E0 : nth_error (snd (c, map begin tasks)) i = Some (Writes marshal_order [])) by (cbn [snd]; rewrite nth_error_map, E; reflexivity).
  destruct (R i _ E0 I) as (g & Eg & W & L). exists g. split; [exact Eg|]. split.
  - intros o ->. specialize (T1 _ _ Eg). cbn [on_course] in T1. now symmetry.
  - intros C. change (left (Writes marshal_order [])) with 28%nat in L. destruct g as [r p|rest out|o]; [destruct W|cbn [left] in L; lia|eauto].
Qed.
Print Assumptions C135_write_while_verifying.

Lemma verifier_kept k turns : forall s i r p, nth_error (snd s) i = Some (Verifies r p) ->
  exists p', nth_error (snd (fold_left (turn_of k) turns s)) i = Some (Verifies r p').
Proof.
  induction turns as [|j turns IH]; intros [d gs] i r p E; [eauto|]. cbn [fold_left]. unfold turn_of at 2. cbn [snd] in E.
  destruct (nth_error gs j) as [g|] eqn:G; [|eapply IH; exact E].
  destruct (step_of k d g) as [d' g'] eqn:S0. destruct (Nat.eq_dec j i) as [->|N].
  - rewrite E in G. injection G as <-. cbn [step_of] in S0. destruct (go_on k r d p) as [d1 p1]. injection S0 as <- <-.
    apply (IH _ i r p1). cbn [snd]. rewrite Props_VerifyShared.update_nth, E. destruct (Nat.eq_dec i i); [reflexivity|congruence].
  - apply (IH _ i r p). cbn [snd]. rewrite Props_VerifyShared.update_nth. destruct (Nat.eq_dec j i); [congruence|exact E].
Qed.

Definition all_ended (gs : list goroutine) : bool :=
  match gs with [Verifies _ (Ended (Ok _)); Written (Ok (_ :: _))] => true | _ => false end.

Lemma ended_shape gs r p : all_ended gs = true -> nth_error gs 0 = Some (Verifies r p) -> exists b,
  nth_error gs 1 = Some (Written (Ok b)) /\ (0 < length b)%nat /\ nth_error gs 0 = Some (Verifies r (Ended (Ok tt))).
Proof.
  intros H P.
  destruct gs as [|[r1 q|? ?|?] [|[?|? ?|[b|?|]] [|? ?]]]; try discriminate H; destruct q; try discriminate H; destruct o as [[]|?|]; try discriminate H;
    destruct b as [|b0 b]; try discriminate H.
  cbn [nth_error] in *. injection P as -> _. exists (b0 :: b). split; [reflexivity|]. split; [cbn; lia|reflexivity].
Qed.

Definition by_turns : list nat := concat (repeat [0; 1]%nat 28).

Lemma toy_ended : exists c, verified toy (toy_resolver toy_root) (toy_dump [0; 0; 0; 1] [0; 0; 0; 1] 1) c /\
  all_ended (snd (together toy c [Some (toy_resolver toy_root); None] by_turns)) = true.
Proof. apply verified_b_ok. vm_compute. reflexivity. Qed.

(** A goroutine verifies the toy card and another one writes it, in turns; both end. *)
Example C135_example : exists c b, let s := together toy c [Some (toy_resolver toy_root); None] by_turns in
  nth_error (snd s) 1 = Some (Written (Ok b)) /\ (0 < length b)%nat /\ nth_error (snd s) 0 = Some (Verifies (toy_resolver toy_root) (Ended (Ok tt))).
Proof.
  destruct toy_ended as (c & _ & H). exists c. cbv zeta.
  destruct (verifier_kept toy by_turns (c, map begin [Some (toy_resolver toy_root); None]) 0%nat (toy_resolver toy_root) Look eq_refl) as (p & P).
  exact (ended_shape _ _ p H P).
Qed.
