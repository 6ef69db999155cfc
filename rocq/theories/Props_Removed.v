(** C141: what leaving records out of a download does to the verdict on it. *)

From Verif Require Import Base DDScalar RawTypes RawCard Cert DriverCard P_Driver Vu Verify Api P_Dump Props_Dump Props_Driver.
From Verif Require Import Props_Cert Props_Verify.

(** [kept us' us]: [us'] is [us] with some of its members left out. *)
Inductive kept {A} : list A -> list A -> Prop :=
| kept_none : kept [] []
| kept_one u l l' : kept l l' -> kept (u :: l) (u :: l')
| kept_not u l l' : kept l l' -> kept l (u :: l').

Lemma kept_in {A} (l l' : list A) : kept l l' -> incl l l'.
Proof. induction 1 as [|u l l' _ IH|u l l' _ IH]; intros v; cbn; [auto|intros [<-|I]; auto|auto]. Qed.

Lemma kept_filter {A} (f : A -> bool) l : kept (filter f l) l.
Proof. induction l as [|u l IH]; cbn [filter]; [constructor|]. destruct (f u); now constructor. Qed.

(** No two files of a download go to the same place of the card. *)
Definition once (s : slot) (us : list dumped) : Prop :=
  forall l u m v q, us = l ++ u :: m ++ v :: q -> ~ (u_field u = Some s /\ u_field v = Some s).

Lemma once_after s l u q : once s (l ++ u :: q) -> u_field u = Some s -> none_for s q.
Proof.
  intros O U. unfold none_for. apply Forall_forall. intros v I V. apply in_split in I as (m & w & ->).
  apply (O l u m v w); auto.
Qed.

(** What is still there is what was there. *)
Lemma kept_slot cm us us' os os' s e : kept us' us -> once s us -> Forall2 (gives cm) us os -> Forall2 (gives cm) us' os' ->
  slot_of_card (card_of os') s = Some e -> slot_of_card (card_of os) s = Some e.
Proof.
  intros K O G G' E. destruct (card_some cm us' os' s e G' E) as (a & u & b & D & U & _ & _ & X & Q).
  assert (I : In u us) by (apply (kept_in us' us K); rewrite D; apply in_or_app; right; now left).
  apply in_split in I as (l & q & D'). rewrite D' in O.
  destruct (card_last cm us os s u l q G D' U (once_after s l u q O U)) as (x & X' & _ & ->).
  rewrite X in X'. apply Ok_inj in X'. destruct e as [e1 e2]. cbn [fst snd] in X', Q. now rewrite <- X', Q.
Qed.

Lemma kept_has cm us us' os os' a : kept us' us -> Forall2 (gives cm) us os -> Forall2 (gives cm) us' os' ->
  dc_has (card_of os') a = true -> dc_has (card_of os) a = true.
Proof.
  intros K G G'. rewrite (card_has cm us os a G), (card_has cm us' os' a G').
  intros [->|(u & s & I & R)]; [now left|]. right. exists u, s. split; [now apply (kept_in us' us K)|exact R].
Qed.

Lemma kept_ok us us' : kept us' us -> Forall dumped_ok us -> Forall dumped_ok us'.
Proof. rewrite !Forall_forall. intros K H u I. apply H. now apply (kept_in us' us K). Qed.

(** As long as no application disappears with the records, and the download has
    each of the two card certificates at most once, leaving records out makes no
    card pass that did not. *)
Theorem C141_removed_partial : forall k r cm us us' c c', Forall dumped_ok us -> kept us' us -> accepted cm us c -> accepted cm us' c' ->
  once S_card_cert us -> once S2_sign_cert us -> (forall a, dc_has c a = true -> dc_has c' a = true) ->
  fst (verify_file k r (Some (driver_file c'))) = Ok tt -> fst (verify_file k r (Some (driver_file c))) = Ok tt.
Proof.
  intros k r cm us us' c c' V K A A' O1 O2 H. assert (V' := kept_ok us us' K V).
  apply accepted_iff in A as (os & _ & _ & G & ->); auto. apply accepted_iff in A' as (os' & _ & _ & G' & ->); auto.
  assert (Q : forall a, dc_has (card_of os') a = dc_has (card_of os) a).
  { intros a. apply eq_true_iff_eq. split; [now apply (kept_has cm us us' os os')|apply H]. }
  rewrite !verify_driver_file, !verify_driver_fst, !Q.
  intros W. apply bind_ok in W as ([] & W1 & W2).
  assert (E1 : (if dc_has (card_of os) Gen1 then fst (verify_gen1 k (Some r) (card_of os)) else Ok tt) = Ok tt).
  { destruct (dc_has (card_of os) Gen1); auto. destruct (verify_gen1_present _ _ _ W1) as [x X]. rewrite <- W1. symmetry.
    apply (gen1_fst k r (card_of os) (card_of os') x x); auto. unfold card_certificate in X |- *.
    destruct (slot_of_card (card_of os') S_card_cert) as [e|] eqn:E; [|discriminate X].
    now rewrite (kept_slot cm us us' os os' S_card_cert e K O1 G G' E). }
  rewrite E1. cbn [bind]. destruct (dc_has (card_of os) Gen2); auto.
  destruct (verify_gen2_present _ _ _ W2) as [x X]. rewrite <- W2. symmetry. apply gen2_same. rewrite X.
  unfold card_sign_certificate in X |- *.
  destruct (slot_of_card (card_of os') S2_sign_cert) as [e|] eqn:E; [|discriminate X].
  now rewrite (kept_slot cm us us' os os' S2_sign_cert e K O2 G G' E).
Qed.
Print Assumptions C141_removed_partial.

(** ** All but the chip *)

(** The two files that describe the chip and belong to no application. *)
Definition chip (u : dumped) : bool := (u_fid u =? 0x0002) || (u_fid u =? 0x0005).

Lemma chip_field u s : chip u = true -> u_field u = Some s -> slot_app s = Master.
Proof.
  unfold chip, u_field. rewrite orb_true_iff, !Z.eqb_eq.
  intros [->| ->]; destruct (u_gen2 u); vm_compute; intros E; try discriminate E; injection E as <-; reflexivity.
Qed.

Lemma gives_filter cm f us os : Forall2 (gives cm) us os -> exists os', Forall2 (gives cm) (filter f us) os'.
Proof.
  induction 1 as [|u o us os U _ [os' IH]]; cbn [filter]; [exists []; constructor|].
  destruct (f u); [exists (o :: os'); now constructor|now exists os'].
Qed.

(** Every card a program can be given passes, with any source of certificates, once
    all of its files but those of the chip are left out. *)
Theorem C141_stripped : forall cm us c, Forall dumped_ok us -> accepted cm us c ->
  exists c', accepted cm (filter chip us) c' /\
    (forall a, dc_has c' a = true <-> a = Master) /\
    forall k r, verify_file k r (Some (driver_file c')) = (Ok tt, Some (driver_file c')).
Proof.
  intros cm us c V A. assert (K := kept_filter chip us). assert (V' := kept_ok _ _ K V).
  apply accepted_iff in A as (os & (u & q & D & F0) & I & G & ->); auto.
  destruct (gives_filter cm chip us os G) as (os' & G'). exists (card_of os').
  assert (M : forall a, dc_has (card_of os') a = true <-> a = Master).
  { intros a. rewrite (card_has cm _ os' a G'). split; [|now left].
    intros [->|(v & s & J & Fv & <-)]; auto. apply filter_In in J as [_ C]. now apply (chip_field v). }
  split; [|split; [exact M|]].
  - apply accepted_iff; auto. exists os'. split; [|split; [|split; [exact G'|reflexivity]]].
    + exists u, (filter chip q). split; auto. rewrite D. cbn [filter]. unfold chip at 1. rewrite F0. reflexivity.
    + rewrite Forall_forall in I |- *. intros v J. apply I. now apply (kept_in _ _ K).
  - intros k r. assert (N1 : dc_has (card_of os') Gen1 = false) by (apply not_true_iff_false; rewrite M; discriminate).
    assert (N2 : dc_has (card_of os') Gen2 = false) by (apply not_true_iff_false; rewrite M; discriminate).
    unfold verify_file, driver_file. cbn [file_type file_driver_card file_vu file_raw_card].
    change (FILE_DRIVER_CARD =? FILE_DRIVER_CARD) with true. cbv iota. unfold verify_driver_card. rewrite N1, N2. reflexivity.
Qed.
Print Assumptions C141_stripped.

(** ** Witnesses *)

Definition judged_b (k : crypto) (r : resolver) (us : list dumped) (p : driver_card -> bool) : bool :=
  forallb dumped_okb us &&
  match unmarshal_file no_charmap (dump us) with
  | Ok (mkFile 2 None (Some c) None) =>
      negb (is_ok (fst (verify_file k r (Some (driver_file c))))) && p c
  | _ => false
  end.

(** Dump [us] is accepted and does not pass. *)
Definition failed (k : crypto) (r : resolver) (us : list dumped) (c : driver_card) : Prop :=
  Forall dumped_ok us /\ accepted no_charmap us c /\ fst (verify_file k r (Some (driver_file c))) <> Ok tt.

Lemma judged_b_ok k r us p : judged_b k r us p = true -> exists c, failed k r us c /\ p c = true.
Proof.
  unfold judged_b, failed. rewrite andb_true_iff. intros [V H]. apply dumped_okb_ok in V.
  unfold accepted. destruct (unmarshal_file no_charmap (dump us)) as [[t v o w]|?|] eqn:E; try discriminate.
  destruct t as [|[?|[?|?|]|]|?]; try discriminate. destruct v; try discriminate. destruct o as [c|]; try discriminate.
  destruct w; try discriminate. apply andb_true_iff in H as [H1 H2]. exists c. split; auto. split; auto. split; auto.
  intros Q. rewrite Q in H1. discriminate H1.
Qed.

Definition both_apps (c : driver_card) : bool := dc_has c Gen1 && dc_has c Gen2.

Definition every_app (c : driver_card) : bool := dc_has c Master && both_apps c.

Lemma two_apps c : every_app c = true -> forall a, dc_has c a = true.
Proof. unfold every_app, both_apps. rewrite !andb_true_iff. intros (H0 & H1 & H2) []; auto. Qed.

Definition goes_to (s : slot) (u : dumped) : bool :=
  match u_field u with Some t => if slot_eq_dec t s then true else false | None => false end.

Lemma once_b s us : (length (filter (goes_to s) us) <=? 1)%nat = true -> once s us.
Proof.
  rewrite Nat.leb_le. intros L l u m v q -> [U V]. assert (Gu : goes_to s u = true) by (unfold goes_to; rewrite U; now destruct (slot_eq_dec s s)).
  assert (Gv : goes_to s v = true) by (unfold goes_to; rewrite V; now destruct (slot_eq_dec s s)).
  rewrite filter_app in L. cbn [filter] in L. rewrite Gu, filter_app in L. cbn [filter] in L. rewrite Gv in L.
  rewrite app_length in L. cbn [length] in L. rewrite app_length in L. cbn [length] in L. lia.
Qed.

Definition day : bytes := [0; 0; 0; 1].
(** The certificate of a card whose authority nobody knows. *)
Definition unknown_unit : dumped := gen1_unit 8 day.

Definition dump1 : list dumped := [icc_unit; ic_unit; licence_unit 1; unknown_unit; gen2_unit day].
Definition dump1' : list dumped := [icc_unit; ic_unit; gen2_unit day].
Definition dump2 : list dumped := [icc_unit; ic_unit; licence_unit 1; gen1_unit 7 day; unknown_unit; gen2_unit day].
Definition dump2' : list dumped := [icc_unit; ic_unit; licence_unit 1; gen1_unit 7 day; gen2_unit day].
Definition dump3' : list dumped := [icc_unit; gen1_unit 7 day; gen2_unit day].

(** Which member is kept shows in the definitions. *)
Ltac keep := repeat (apply kept_none || (eapply (kept_one icc_unit)) || (eapply (kept_one ic_unit)) ||
  (eapply (kept_one (licence_unit 1))) || (eapply (kept_one (gen1_unit 7 day))) || (eapply (kept_one (gen2_unit day))) || apply kept_not).

(** Without those hypotheses the claim is false, whichever of them is dropped:
    - a card of which the first-generation certificate has an unknown issuer passes
      when the files of the first generation are left out;
    - a card with two first-generation certificates, the later one with an unknown
      issuer, passes when that one is left out, and has both applications still. *)
Theorem C141_removed_refuted :
  (exists k r us us' c c', failed k r us c /\ kept us' us /\ verified k r us' c' /\
     once S_card_cert us /\ once S2_sign_cert us /\ dc_has c Gen1 = true /\ dc_has c' Gen2 = true) /\
  (exists k r us us' c c', failed k r us c /\ kept us' us /\ verified k r us' c' /\
     once S2_sign_cert us /\ forall a, dc_has c a = true -> dc_has c' a = true).
Proof.
  split.
  - assert (H : exists c, failed toy (toy_resolver toy_root) dump1 c /\ both_apps c = true)
      by (apply judged_b_ok; vm_compute; reflexivity).
    assert (H' : exists c, verified toy (toy_resolver toy_root) dump1' c /\ dc_has c Gen2 = true)
      by (apply verified_b_ok; vm_compute; reflexivity).
    destruct H as (c & F & B), H' as (c' & W & B'). exists toy, (toy_resolver toy_root). exists dump1, dump1', c, c'.
    split; [exact F|]. split; [unfold toy_dump, dump1, dump1', dump2, dump2', dump3'; keep|]. split; [exact W|]. apply andb_true_iff in B as [B _].
    split; [apply once_b; vm_compute; reflexivity|]. split; [apply once_b; vm_compute; reflexivity|]. split; assumption.
  - assert (H : exists c, failed toy (toy_resolver toy_root)
      dump2 c /\ both_apps c = true)
      by (apply judged_b_ok; vm_compute; reflexivity).
    assert (H' : exists c, verified toy (toy_resolver toy_root) dump2' c /\
      every_app c = true) by (apply verified_b_ok; vm_compute; reflexivity).
    destruct H as (c & F & B), H' as (c' & W & B'). exists toy, (toy_resolver toy_root). exists dump2, dump2', c, c'.
    split; [exact F|]. split; [unfold toy_dump, dump1, dump1', dump2, dump2', dump3'; keep|]. split; [exact W|].
    split; [apply once_b; vm_compute; reflexivity|]. intros a _. now apply two_apps.
Qed.
Print Assumptions C141_removed_refuted.

(** A card that passes with its licence record, and without. *)
Example C141_example : exists k r us us' c c', Forall dumped_ok us /\ kept us' us /\ us' <> us /\ accepted no_charmap us c /\ accepted no_charmap us' c' /\
  once S_card_cert us /\ once S2_sign_cert us /\ (forall a, dc_has c a = true -> dc_has c' a = true) /\
  fst (verify_file k r (Some (driver_file c'))) = Ok tt /\ dc_has c Gen1 = true /\ dc_has c Gen2 = true.
Proof.
  assert (H : exists c, verified toy (toy_resolver toy_root) (toy_dump day day 1) c /\ both_apps c = true)
    by (apply verified_b_ok; vm_compute; reflexivity).
  assert (H' : exists c, verified toy (toy_resolver toy_root) dump3' c /\
    every_app c = true) by (apply verified_b_ok; vm_compute; reflexivity).
  destruct H as (c & (V & A & O) & B), H' as (c' & (V' & A' & O') & B'). exists toy, (toy_resolver toy_root).
  exists (toy_dump day day 1), dump3', c, c'. apply andb_true_iff in B as [B1 B2].
  split; [exact V|]. split; [unfold toy_dump, dump1, dump1', dump2, dump2', dump3'; keep|]. split; [intros Q; now apply (f_equal (@length dumped)) in Q|].
  split; [exact A|]. split; [exact A'|].
  split; [apply once_b; vm_compute; reflexivity|]. split; [apply once_b; vm_compute; reflexivity|].
  split; [intros a _; now apply two_apps|]. auto.
Qed.
