(** C148: from what vehicle units stored to the message of the whole card. *)

From Verif Require Import Base Enums DDScalar DDRecord CardRecords CardActivity DriverCard P_Driver Api P_Dump Use Props_Use Props_Newest Props_Driver Props_Readable Props_SameCard.

(** A card is read if each of its files is, and each field shows its last file. *)
Lemma whole_card cm us : Forall dumped_ok us -> starts_with_icc us -> Forall unit_readable us ->
  exists c, accepted cm us c /\ forall s u, last_for s us u -> exists x,
    unmarshal_content cm s (u_val u) = Ok x /\ slot_of_card c s = Some (x, u_signature u).
Proof.
  intros V St R.
  assert (I : Forall (fun u => In (u_fid u) driver_fids) us) by (eapply Forall_impl; [|exact R]; intros u [U _]; exact U).
  assert (G : exists os, Forall2 (gives cm) us os).
  { clear St. induction us as [|u us IH]; [exists []; constructor|].
    apply Forall_cons_iff in V as [V1 V], I as [I1 I], R as [R1 R]. destruct (IH V R I) as (os & G).
    apply (gives_readable cm u V1 I1) in R1 as (o & O). exists (o :: os). now constructor. }
  destruct G as (os & G). exists (card_of os). split; [apply accepted_iff; eauto 10|].
  intros s u (a & b & E & U & N). destruct (card_last cm us os s u a b G E U) as (x & X & _ & Y).
  { unfold none_for. rewrite Forall_forall. exact N. }
  eauto.
Qed.

Lemma field_listed fid g s : field_of fid g = Some s -> In fid driver_fids.
Proof.
  unfold field_of. destruct (find _ fields_table) as [[[f s1] s2]|] eqn:E; [|discriminate]. intros _.
  apply find_some in E as [I E]. apply Z.eqb_eq in E. cbn [fst] in E. subst f.
  assert (K : forallb (fun p => existsb (Z.eqb (fst (fst p))) driver_fids) fields_table = true) by reflexivity.
  rewrite forallb_forall in K. specialize (K _ I). cbn [fst] in K. apply existsb_exists in K as (x & X & Y). apply Z.eqb_eq in Y. now subst x.
Qed.

(** A file that can be read into its field is readable. *)
Lemma content_readable cm us u s x : Forall dumped_ok us -> last_for s us u -> unmarshal_content cm s (u_val u) = Ok x ->
  rejects_signature s = false -> unit_readable u.
Proof.
  intros V LF X J. pose proof (last_for_in s us u LF) as [I _]. destruct LF as (a & b & E & U & _).
  rewrite Forall_forall in V. apply (gives_readable cm u (V u I) (field_listed _ _ _ U)). eexists. unfold gives, u_field. rewrite U.
  exists x. split; [exact X|]. split; [|reflexivity]. rewrite J. discriminate.
Qed.

(** What the ring of the activities went through. *)
Definition lived (buf : bytes) (uses : list usage) : Prop :=
  bytes_ok buf /\ (24 <= length buf)%nat /\ Z.of_nat (length buf) < 65536 /\
  Forall usage_ok uses /\ Forall (fun d => (size d + 12 <= length buf)%nat) (history uses) /\ history uses <> [] /\
  (forall a d b, history uses = a ++ d :: b -> (total a mod length buf + 4 <= length buf)%nat) /\ (length (history uses) <= 365)%nat.

(** The latest of these days that fit are those of the message. *)
Definition shown_days (buf : bytes) (uses : list usage) (a : activity) : Prop :=
  exists gone there, history uses = gone ++ there /\ (total there <= length buf)%nat /\
    (gone = [] \/ exists h d, gone = h ++ [d] /\ (length buf < total (d :: there))%nat) /\ Forall2 shows there (act_days a).

Lemma lived_read buf uses s : lived buf uses -> use buf uses = Some s ->
  exists a, unmarshal_activity (file_of s) = Ok a /\ shown_days buf uses a.
Proof.
  intros (B & L & LZ & U & SZ & NE & X & Y) US.
  destruct (C145_nothing_lost_partial buf uses B L LZ U SZ NE X Y) as (g & t & s' & a & H1 & T & G & U1 & R & SH).
  rewrite US in U1. injection U1 as <-. exists a. split; [exact R|]. exists g, t. auto.
Qed.

(** ** C148 *)

(** The files of the activities and of the places are as vehicle units left them, all
    others are readable: then the card is read, and its message shows the latest days and
    places.  First the application of the first generation, then that of the second. *)
Theorem C148_gen1_partial : forall cm us ua up buf uses s places stored,
  Forall dumped_ok us -> starts_with_icc us -> (forall u, In u us -> u = ua \/ u = up \/ unit_readable u) ->
  last_for S_activity us ua -> u_val ua = file_of s -> lived buf uses -> use buf uses = Some s ->
  last_for S_places us up -> u_val up = indexed_file 1 places stored -> in_use 1 10 places stored ->
  exists c a p, accepted cm us c /\
    slot_of_card c S_activity = Some (a, u_signature ua) /\ shown_days buf uses a /\
    slot_of_card c S_places = Some (p, u_signature up) /\ ps_newest p = Z.of_nat ((length stored - 1) mod length places) /\
    latest unmarshal_place stored (ps_newest p) (ps_records p).
Proof.
  intros cm us ua up buf uses s places stored V St R LA VA LV US LP VP IU.
  destruct (lived_read buf uses s LV US) as (a & RA & SA).
  destruct (proj1 (C146_total places stored) IU) as (p & RP & NP & _ & TP).
  assert (XA : unmarshal_content cm S_activity (u_val ua) = Ok a) by (rewrite VA; exact RA).
  assert (XP : unmarshal_content cm S_places (u_val up) = Ok p) by (rewrite VP; exact RP).
  destruct (whole_card cm us V St) as (c & A & K).
  { apply Forall_forall. intros u I. destruct (R u I) as [->|[->|Q]]; [| |exact Q].
    - exact (content_readable cm us ua S_activity a V LA XA eq_refl).
    - exact (content_readable cm us up S_places p V LP XP eq_refl). }
  exists c, a, p. split; [exact A|].
  destruct (K S_activity ua LA) as (a' & XA' & CA). rewrite XA in XA'. apply Ok_inj in XA'. subst a'.
  destruct (K S_places up LP) as (p' & XP' & CP). rewrite XP in XP'. apply Ok_inj in XP'. subst p'. auto 10.
Qed.
Print Assumptions C148_gen1_partial.

Theorem C148_gen2_partial : forall cm us ua up buf uses s places stored,
  Forall dumped_ok us -> starts_with_icc us -> (forall u, In u us -> u = ua \/ u = up \/ unit_readable u) ->
  last_for S2_activity us ua -> u_val ua = file_of s -> lived buf uses -> use buf uses = Some s ->
  last_for S2_places us up -> u_val up = indexed_file 2 places stored -> in_use 2 21 places stored ->
  exists c a p, accepted cm us c /\
    slot_of_card c S2_activity = Some (a, u_signature ua) /\ shown_days buf uses a /\
    slot_of_card c S2_places = Some (p, u_signature up) /\ ps2_newest p = Z.of_nat ((length stored - 1) mod length places) /\
    latest unmarshal_place_g2 stored (ps2_newest p) (ps2_records p).
Proof.
  intros cm us ua up buf uses s places stored V St R LA VA LV US LP VP IU.
  destruct (lived_read buf uses s LV US) as (a & RA & SA).
  destruct (proj1 (proj2 (C146_total places stored)) IU) as (p & RP & NP & _ & TP).
  assert (XA : unmarshal_content cm S2_activity (u_val ua) = Ok a) by (rewrite VA; exact RA).
  assert (XP : unmarshal_content cm S2_places (u_val up) = Ok p) by (rewrite VP; exact RP).
  destruct (whole_card cm us V St) as (c & A & K).
  { apply Forall_forall. intros u I. destruct (R u I) as [->|[->|Q]]; [| |exact Q].
    - exact (content_readable cm us ua S2_activity a V LA XA eq_refl).
    - exact (content_readable cm us up S2_places p V LP XP eq_refl). }
  exists c, a, p. split; [exact A|].
  destruct (K S2_activity ua LA) as (a' & XA' & CA). rewrite XA in XA'. apply Ok_inj in XA'. subst a'.
  destruct (K S2_places up LP) as (p' & XP' & CP). rewrite XP in XP'. apply Ok_inj in XP'. subst p'. auto 10.
Qed.
Print Assumptions C148_gen2_partial.

(** The other files whose records are stored in turn, on a card that is read. *)
Theorem C148_records : forall cm us c u places stored, Forall dumped_ok us -> accepted cm us c ->
  (last_for S_vehicles us u -> u_val u = indexed_file 2 places stored -> in_use 2 31 places stored ->
     exists x, slot_of_card c S_vehicles = Some (x, u_signature u) /\ length (vs_records x) = length places /\
       latest (unmarshal_card_vehicle cm) stored (vs_newest x) (vs_records x)) /\
  (last_for S2_vehicles us u -> u_val u = indexed_file 2 places stored -> in_use 2 48 places stored ->
     exists x, slot_of_card c S2_vehicles = Some (x, u_signature u) /\ length (vs2_records x) = length places /\
       latest (unmarshal_card_vehicle_g2 cm) stored (vs2_newest x) (vs2_records x)) /\
  (last_for S2_conditions us u -> u_val u = indexed_file 2 places stored -> in_use 2 5 places stored ->
     exists x, slot_of_card c S2_conditions = Some (x, u_signature u) /\ length (co2_records x) = length places /\
       latest unmarshal_spec_cond stored (co2_newest x) (co2_records x)) /\
  (last_for S2_gnss us u -> u_val u = indexed_file 2 places stored -> in_use 2 18 places stored ->
     exists x, slot_of_card c S2_gnss = Some (x, u_signature u) /\ length (gps_records x) = length places /\
       latest unmarshal_gnss_record stored (gps_newest x) (gps_records x)) /\
  (last_for S2_units us u -> u_val u = indexed_file 2 places stored -> in_use 2 10 places stored -> (length places <= 409)%nat ->
     exists x, slot_of_card c S2_units = Some (x, u_signature u) /\ length (uu_records x) = length places /\
       latest (fun b => unmarshal_unit_record (b, b)) stored (uu_newest x) (uu_records x)).
Proof.
  intros cm us c u places stored V A.
  assert (K : forall s, last_for s us u -> exists x, unmarshal_content cm s (u_val u) = Ok x /\ slot_of_card c s = Some (x, u_signature u)).
  { apply accepted_iff in A as (os & _ & _ & G & ->); [|exact V]. intros s (a & b & E & U & N).
    destruct (card_last cm us os s u a b G E U) as (x & X & _ & Y); [|eauto]. unfold none_for. rewrite Forall_forall. exact N. }
  destruct (C146_total places stored) as (_ & _ & T). destruct (C146_accepted places stored) as (T1 & T2 & T3).
  split; [|split; [|split; [|split]]]; intros LF E I.
  - destruct (K _ LF) as (x & X & Y). rewrite E in X. exists x. split; [exact Y|]. apply (T1 cm x I X).
  - destruct (K _ LF) as (x & X & Y). rewrite E in X. exists x. split; [exact Y|]. apply (T2 cm x I X).
  - destruct (K _ LF) as (x & X & Y). rewrite E in X. exists x. split; [exact Y|]. destruct (T I) as (x' & X' & Q).
    cbn [unmarshal_content] in X. rewrite X in X'. apply Ok_inj in X'. subst x'. apply Q.
  - destruct (K _ LF) as (x & X & Y). rewrite E in X. exists x. split; [exact Y|]. apply (T3 x I X).
  - intros Q. destruct (K _ LF) as (x & X & Y). rewrite E in X. exists x. split; [exact Y|]. apply (C146_units_partial places stored x I Q X).
Qed.
Print Assumptions C148_records.

(** A card with more than 365 days on it is not read at all. *)
Definition many_days : list usage := repeat (Day (sample_fixed 1)) 366.

Lemma repeat_total d k : total (repeat d k) = (k * size d)%nat.
Proof. induction k as [|k IH]; [reflexivity|]. cbn [repeat]. rewrite total_cons, IH. lia. Qed.

Lemma history_repeat b k : history (repeat (Day b) k) = repeat (b, []) k.
Proof.
  assert (R : forall X (x : X) n, repeat x n ++ [x] = x :: repeat x n) by (intros X x n; induction n as [|n IH]; [reflexivity|]; cbn; now rewrite IH).
  induction k as [|k IH]; [reflexivity|]. cbn [repeat]. rewrite <- (R _ (Day b)), history_snoc, IH. apply R.
Qed.

Lemma file_dumped s : bytes_ok (s_buf s) -> (Z.of_nat (length (s_buf s)) <=? 65000) = true -> dumped_ok (mkDumped 0x0504 0 (file_of s) None).
Proof.
  intros B L. unfold dumped_ok. cbn [u_fid u_app u_val u_sig]. unfold byte_ok, file_of. split; [lia|]. split; [lia|]. split; [reflexivity|].
  split; [rewrite !bytes_ok_app; auto using to_be_ok|]. split; [|exact I]. rewrite !app_length, !to_be_length. lia.
Qed.

Lemma icc_ok : dumped_ok icc_unit.
Proof. apply (Forall_inv (l := [])). apply dumped_okb_ok. reflexivity. Qed.

Lemma icc_readable : unit_readable icc_unit.
Proof.
  apply (gives_readable (fun _ b => b) icc_unit icc_ok); [now left|].
  eexists. unfold gives. change (u_field icc_unit) with (Some S_icc). cbv iota.
  eexists. split; [vm_compute; reflexivity|]. split; [intros _; reflexivity|reflexivity].
Qed.

Theorem C148_refuted : exists us ua buf uses s,
  Forall dumped_ok us /\ starts_with_icc us /\ (forall u, In u us -> u = ua \/ unit_readable u) /\
  last_for S_activity us ua /\ u_val ua = file_of s /\ use buf uses = Some s /\
  bytes_ok buf /\ (24 <= length buf)%nat /\ Z.of_nat (length buf) < 65536 /\ Forall usage_ok uses /\
  Forall (fun d => (size d + 12 <= length buf)%nat) (history uses) /\ (total (history uses) <= length buf)%nat /\
  (forall a d b, history uses = a ++ d :: b -> (total a mod length buf + 4 <= length buf)%nat) /\
  forall cm c, ~ accepted cm us c.
Proof.
  assert (D : usage_ok (Day (sample_fixed 1))) by (split; [repeat constructor; cbn; lia|]; split; [reflexivity|]; repeat constructor; cbn; lia).
  assert (LB : Z.of_nat (length (zeros 4800)) = 4800) by reflexivity.
  assert (B : bytes_ok (zeros 4800)) by (apply bytes_okb_ok; reflexivity).
  assert (H : history many_days = repeat (sample_fixed 1, []) 366) by apply history_repeat.
  assert (T : total (history many_days) = (366 * 12)%nat) by (rewrite H; apply repeat_total).
  assert (U : Forall usage_ok many_days) by (apply Forall_forall; intros u I; apply repeat_spec in I; now subst u).
  set (buf := zeros 4800) in *. clearbody buf.
  assert (SZ : Forall (fun d => (size d + 12 <= length buf)%nat) (history many_days)).
  { rewrite H. apply Forall_forall. intros d I. apply repeat_spec in I. subst d. change (size (sample_fixed 1, [])) with 12%nat. lia. }
  assert (NE : history many_days <> []) by (rewrite H; discriminate).
  assert (L : (24 <= length buf)%nat) by lia. assert (LZ : Z.of_nat (length buf) < 65536) by lia.
  assert (LH : length (history many_days) = 366%nat) by (rewrite H; apply repeat_length).
  pose proof SZ as SZ'. pose proof T as T'. set (hist := history many_days) in *.
  assert (PRE : forall a b, hist = a ++ b -> (total a <= 366 * 12)%nat) by (intros a b E; rewrite <- T, E, total_app; lia).
  destruct (C145_in_use_partial buf many_days B L LZ U SZ NE) as (h1 & h2 & h3 & s & E & _ & US & _ & G1 & _ & G2 & _ & R).
  fold hist in E, R.
  assert (E1 : h1 = []).
  { destruct G1 as [Q|(h & d & Q & G)]; [exact Q|exfalso]. subst h1. rewrite <- app_assoc in E. cbn [List.app] in E.
    assert (total (d :: h2 ++ h3) <= 366 * 12)%nat by (rewrite <- T, E, (total_app h); lia). lia. }
  subst h1. assert (E2 : h2 = []).
  { destruct G2 as [Q|(h & d & Q & G)]; [exact Q|exfalso]. subst h2. cbn [List.app] in *. rewrite <- app_assoc in E.
    pose proof (PRE _ _ E) as P. rewrite Nat.mod_small in G by lia. lia. }
  subst h2. cbn [List.app] in E. subst h3. destruct (R ltac:(lia)) as (e & X).
  assert (OK : dumped_ok (mkDumped 0x0504 0 (file_of s) None)).
  { destruct (use_inv (length buf) buf many_days (conj L LZ) B eq_refl U SZ') as [[Q _]|(pre & init & d & s' & _ & US' & [LS BS _ _ _ _] & _)]; [contradiction|].
    rewrite US in US'. injection US' as <-. apply file_dumped; [exact BS|]. rewrite LS, LB. reflexivity. }
  assert (LF : last_for S_activity [icc_unit; mkDumped 0x0504 0 (file_of s) None] (mkDumped 0x0504 0 (file_of s) None)).
  { exists [icc_unit], []. split; [reflexivity|]. split; [reflexivity|]. intros v []. }
  exists [icc_unit; mkDumped 0x0504 0 (file_of s) None], (mkDumped 0x0504 0 (file_of s) None), buf, many_days, s.
  pose proof icc_ok as OI.
  assert (V : Forall dumped_ok [icc_unit; mkDumped 0x0504 0 (file_of s) None]) by exact (Forall_cons _ OI (Forall_cons _ OK (Forall_nil _))).
  split; [exact V|]. split; [exists icc_unit; eexists; split; reflexivity|]. split.
  { intros u [<-|[<-|[]]]; [right; exact icc_readable|now left]. }
  split; [exact LF|]. split; [reflexivity|]. split; [exact US|]. split; [exact B|]. split; [exact L|]. split; [exact LZ|]. split; [exact U|].
  split; [exact SZ'|]. split; [fold hist; rewrite T'; lia|]. split.
  { intros a d b Q. pose proof (PRE _ _ Q) as P. rewrite Nat.mod_small; lia. }
  intros cm c A. apply accepted_iff in A as (os & _ & _ & G & _); [|exact V].
  inversion G as [|? o ? os1 _ G']; subst. inversion G' as [|? o' ? os2 K _]; subst.
  unfold gives in K. change (u_field (mkDumped 0x0504 0 (file_of s) None)) with (Some S_activity) in K. cbv iota in K.
  destruct K as (x & K & _). cbn [u_val unmarshal_content] in K. congruence.
Qed.
Print Assumptions C148_refuted.

(** Days 1 and 2 on the card, and a place of three after the third was overwritten. *)
Example C148_example :
  exists s, use (zeros 30) [Day (sample_fixed 1); Change 2053; Day (sample_fixed 2)] = Some s /\
  let ua := mkDumped 0x0504 0 (file_of s) None in let up := mkDumped 0x0506 0 (indexed_file 1 (repeat (pl 0) 3) [pl 1; pl 2; pl 3; pl 4]) None in
  last_for S_activity [icc_unit; ua; up] ua /\ last_for S_places [icc_unit; ua; up] up /\
  exists c, accepted (fun _ b => b) [icc_unit; ua; up] c /\
    option_map (fun e => map (fun r => option_map ts_seconds (day_date r)) (act_days (fst e))) (slot_of_card c S_activity) = Some [Some 1; Some 2] /\
    option_map (fun e => (ps_newest (fst e), map pl_odometer (ps_records (fst e)))) (slot_of_card c S_places) = Some (0, [4; 2; 3]).
Proof.
  eexists. split; [vm_compute; reflexivity|]. cbv zeta. split; [|split].
  - exists [icc_unit]. eexists. split; [reflexivity|]. split; [reflexivity|]. intros v [<-|[]]. discriminate.
  - eexists [icc_unit; _], []. split; [reflexivity|]. split; [reflexivity|]. intros v [].
  - eexists. split; [vm_compute; reflexivity|]. split; vm_compute; reflexivity.
Qed.
