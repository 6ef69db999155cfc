(** C128: files put together. *)

From Verif Require Import Base Enums Chunks DDScalar DDString DDRecord P_String RawTypes P_Records P_RawCard Field P_Scanner.
From Verif Require Import Cert DriverCard P_Driver Vu Verify Api P_Vu P_Dump Props_Dump P_Write Props_Driver Props_Vu.

(** * Driver cards *)

Lemma latest_default s os d : latest s os d = match latest s os None with Some e => Some e | None => d end.
Proof.
  revert d. induction os as [|[e|] os IH]; intros d; cbn [latest].
  - reflexivity.
  - destruct (entry_at s e) as [x|].
    + rewrite IH. destruct (latest s os None); reflexivity.
    + apply IH.
  - apply IH.
Qed.

(** Two dumps of driver cards in a row are read as one, and of every file that occurs
    in both the second counts. *)
Theorem C128_cards : forall cm d1 d2 c1 c2, bytes_ok d1 -> bytes_ok d2 ->
  unmarshal_file cm d1 = Ok (mkFile FILE_DRIVER_CARD None (Some c1) None) ->
  unmarshal_file cm d2 = Ok (mkFile FILE_DRIVER_CARD None (Some c2) None) ->
  exists c, unmarshal_file cm (d1 ++ d2) = Ok (mkFile FILE_DRIVER_CARD None (Some c) None) /\
    (forall s, slot_of_card c s = match slot_of_card c2 s with Some e => Some e | None => slot_of_card c1 s end) /\
    forall a, dc_has c a = dc_has c1 a || dc_has c2 a.
Proof.
  intros cm d1 d2 c1 c2 B1 B2 E1 E2.
  destruct (proj1 (driver_parse cm d1 _ B1) (conj E1 eq_refl)) as (us & os & V1 & D1 & S1 & I1 & G1 & Q1).
  destruct (proj1 (driver_parse cm d2 _ B2) (conj E2 eq_refl)) as (vs & ps & V2 & D2 & S2 & I2 & G2 & Q2).
  injection Q1 as ->. injection Q2 as ->.
  assert (V : Forall dumped_ok (us ++ vs)) by now apply Forall_app.
  assert (G : Forall2 (gives cm) (us ++ vs) (os ++ ps)) by now apply Forall2_app.
  exists (card_of (os ++ ps)). split.
  - rewrite D1, D2, <- dump_app. apply (proj2 (accepted_iff cm (us ++ vs) _ V)). exists (os ++ ps).
    split; [|split; [now apply Forall_app|auto]].
    destruct S1 as (u & us' & -> & F). exists u, (us' ++ vs). auto.
  - split.
    + intros s. rewrite !card_of_slot, latest_app. apply latest_default.
    + intros a. rewrite !card_of_has, existsb_app. destruct (app_eqb a Master), (existsb (in_app a) os); reflexivity.
Qed.
Print Assumptions C128_cards.

(** Two cards, the second of which has a driving licence and a later download. *)
Example C128_cards_example : exists d1 d2 c1 c2 x1 x2, bytes_ok d1 /\ bytes_ok d2 /\
  unmarshal_file no_charmap d1 = Ok (mkFile FILE_DRIVER_CARD None (Some c1) None) /\
  unmarshal_file no_charmap d2 = Ok (mkFile FILE_DRIVER_CARD None (Some c2) None) /\
  slot_of_card c1 S_download = Some x1 /\ slot_of_card c2 S_download = Some x2 /\ x1 <> x2 /\
  slot_of_card c1 S_licence = None /\ slot_of_card c2 S_licence <> None.
Proof.
  set (u n := mkDumped 0x050E 0 [0; 0; 0; n] None).
  set (us := [icc_unit; u 1]). set (vs := [icc_unit; u 2; mkDumped 0x0521 0 (zeros 53) (Some (1, zeros 128))]).
  destruct (driver_ok_accepted us) as (V1 & c1 & A1); [vm_compute; reflexivity|].
  destruct (driver_ok_accepted vs) as (V2 & c2 & A2); [vm_compute; reflexivity|].
  pose proof (dump_bytes_ok us V1) as B1. pose proof (dump_bytes_ok vs V2) as B2.
  assert (A1' := A1). assert (A2' := A2).
  apply accepted_iff in A1 as (os & _ & _ & G1 & ->); auto. apply accepted_iff in A2 as (ps & _ & _ & G2 & ->); auto.
  destruct (card_last no_charmap us os S_download (u 1) [icc_unit] [] G1) as (x1 & X1 & _ & Y1); [reflexivity|reflexivity|constructor|].
  destruct (card_last no_charmap vs ps S_download (u 2) [icc_unit] [mkDumped 0x0521 0 (zeros 53) (Some (1, zeros 128))] G2)
    as (x2 & X2 & _ & Y2); [reflexivity|reflexivity|repeat constructor; discriminate|].
  destruct (card_last no_charmap vs ps S_licence (mkDumped 0x0521 0 (zeros 53) (Some (1, zeros 128))) [icc_unit; u 2] [] G2)
    as (x3 & X3 & _ & Y3); [reflexivity|reflexivity|constructor|].
  exists (dump us), (dump vs), (card_of os), (card_of ps). do 2 eexists.
  split; [exact B1|]. split; [exact B2|]. split; [exact A1'|]. split; [exact A2'|]. split; [exact Y1|]. split; [exact Y2|].
  split; [|split; [|rewrite Y3; discriminate]].
  - intros E. injection E as E. rewrite E in X1. vm_compute in X1, X2. congruence.
  - apply (card_none no_charmap us os S_licence G1). repeat constructor; discriminate.
Qed.

(** * Vehicle unit downloads *)

Definition later {A} (a b : option A) : option A := match b with Some x => Some x | None => a end.

(** The message of two downloads in a row, given the messages of each: the lists one
    after the other, and the overview of the second if it has one.  There is none for
    downloads of different generations, nor for the two versions of the second
    generation if there is a first-version overview. *)
Definition both_gen1 (f g : vu_gen1) : vu_gen1 :=
  mkG1 (later (g1_overview f) (g1_overview g)) (g1_activities f ++ g1_activities g) (g1_events f ++ g1_events g)
    (g1_speed f ++ g1_speed g) (g1_technical f ++ g1_technical g).

Definition both_gen2 (f g : vu_gen2) : vu_gen2 :=
  mkG2 (later (g2_overview f) (g2_overview g)) (g2_activities f ++ g2_activities g) (g2_events f ++ g2_events g)
    (g2_speed f ++ g2_speed g) (g2_technical f ++ g2_technical g).

Definition both (f g : vu_file) : option vu_file :=
  match f, g with
  | VuGen1 a, VuGen1 b => Some (VuGen1 (both_gen1 a b))
  | VuGen2V1 a, VuGen2V1 b => Some (VuGen2V1 (both_gen2 a b))
  | VuGen2V2 a, VuGen2V2 b => Some (VuGen2V2 (both_gen2 a b))
  | VuGen2V1 a, VuGen2V2 b => match g2_overview a with None => Some (VuGen2V2 (both_gen2 a b)) | Some _ => None end
  | VuGen2V2 a, VuGen2V1 b => match g2_overview b with None => Some (VuGen2V2 (both_gen2 a b)) | Some _ => None end
  | _, _ => None
  end.

Lemma last_one_app {A} (a b : list A) : last_one (a ++ b) = match last_one b with [] => last_one a | l => l end.
Proof. unfold last_one. rewrite rev_app_distr. destruct (rev b); reflexivity. Qed.

Lemma later_list {A} (a b : option A) : opt_list (later a b) = match opt_list b with [] => opt_list a | l => l end.
Proof. destruct b; reflexivity. Qed.

Lemma built1_app cm ts us f g : built1 cm ts f -> built1 cm us g -> built1 cm (ts ++ us) (both_gen1 f g).
Proof.
  intros (T & A & B & C & D & E & P1 & P2 & P3) (T' & A' & B' & C' & D' & E' & Q1 & Q2 & Q3).
  rewrite !Forall_app in P3, Q3. unfold built1, both_gen1. cbn [g1_overview g1_activities g1_events g1_speed g1_technical].
  rewrite !values_app, !map_app, !Forall_app, last_one_app, later_list.
  split; [auto|]. split.
  { rewrite <- A, <- A'. destruct (g1_overview g), (g1_overview f); reflexivity. }
  repeat (split; [congruence|]). split; [destruct (g1_overview g); auto|]. tauto.
Qed.

Lemma gen2_app k ts us : gen2_message k (ts ++ us) = both_gen2 (gen2_message k ts) (gen2_message k us).
Proof.
  unfold gen2_message, both_gen2. cbn [g2_overview g2_activities g2_events g2_speed g2_technical].
  rewrite !values_app, last_one_app. f_equal. unfold later. destruct (last_one (values k us)); reflexivity.
Qed.

(** No overview in the message, no overview in the download. *)
Lemma no_overview k l ts : g2_overview (gen2_message k ts) = None -> Forall (fun t => In (fst t) (k :: l)) ts -> Forall (fun t => In (fst t) l) ts.
Proof.
  unfold gen2_message. cbn [g2_overview]. intros N F. rewrite Forall_forall in *. intros t I. destruct (F t I) as [E|E]; [|exact E].
  exfalso. unfold last_one in N. destruct (rev (values k ts)) as [|v w] eqn:R; [|discriminate N].
  apply (f_equal (@rev bytes)) in R. rewrite rev_involutive in R. cbn [rev] in R.
  assert (J : In (snd t) (values k ts)).
  { unfold values. apply in_map, filter_In. split; auto. now apply Z.eqb_eq. }
  rewrite R in J. destruct J.
Qed.

Lemma overview_in k ts v : g2_overview (gen2_message k ts) = Some v -> exists t, In t ts /\ fst t = k.
Proof.
  unfold gen2_message. cbn [g2_overview]. unfold last_one. destruct (rev (values k ts)) as [|x w] eqn:R; [discriminate|]. intros _.
  assert (J : In x (values k ts)) by (apply in_rev; rewrite R; now left).
  unfold values in J. apply in_map_iff in J as (t & _ & J). apply filter_In in J as [J E]. exists t. split; auto. now apply Z.eqb_eq.
Qed.

Lemma gen2_weaken k ts : Forall (fun t => In (fst t) [0x24]) ts -> k <> 0x24 -> gen2_message k ts = mkG2 None [] [] (values 0x24 ts) [].
Proof. intros F N. unfold gen2_message. rewrite (values_none k ts [0x24] F); [reflexivity|]. cbn. lia. Qed.

Theorem C128_downloads : forall cm d1 d2 f1 f2, bytes_ok d1 -> bytes_ok d2 ->
  unmarshal_file cm d1 = Ok (vu f1) -> unmarshal_file cm d2 = Ok (vu f2) ->
  match both f1 f2 with
  | Some f => unmarshal_file cm (d1 ++ d2) = Ok (vu f)
  | None => forall f, unmarshal_file cm (d1 ++ d2) <> Ok f
  end.
Proof.
  intros cm d1 d2 f1 f2 B1 B2 E1 E2.
  destruct (vu_download cm _ f1 B1 E1) as (H1 & ts & -> & W1 & M1). destruct (vu_download cm _ f2 B2 E2) as (H2 & us & -> & W2 & M2).
  clear E1 E2. assert (N1 : ts <> []) by (intros ->; discriminate H1). assert (N2 : us <> []) by (intros ->; discriminate H2).
  assert (B : bytes_ok (download (ts ++ us))) by (rewrite download_app; now apply bytes_ok_app).
  assert (H : firstn 1 (download (ts ++ us)) = [0x76]).
  { rewrite download_app. destruct (download ts) as [|x l]; [discriminate H1|exact H1]. }
  assert (W : Forall well_formed (ts ++ us)) by now apply Forall_app.
  rewrite <- download_app.
  assert (K : forall f, unmarshal_file cm (download (ts ++ us)) = Ok f <-> message cm (ts ++ us) f).
  { intros f. rewrite (proj2 (vu_spec cm _ B H) f). split.
    - intros (ws & E & W' & M). apply download_inj in E; auto. now subst ws.
    - intros M. now exists (ts ++ us). }
  clear H1 H2 W1 W2 B1 B2 H B W.
  assert (NO : forall l1 l2, Forall (fun t => In (fst t) l1) ts -> Forall (fun t => In (fst t) l2) us ->
    (forall x y l, In x l1 -> In y l2 -> In l [[1; 2; 3; 4; 5]; [0x21; 0x24]; [0x00; 0x31; 0x24]] -> In x l -> In y l -> False) ->
    forall f, unmarshal_file cm (download (ts ++ us)) <> Ok f).
  { intros l1 l2 F1 F2 X f E. apply K in E. destruct ts as [|t ts]; [now destruct N1|]. destruct us as [|u us]; [now destruct N2|].
    assert (T : exists l, In l [[1; 2; 3; 4; 5]; [0x21; 0x24]; [0x00; 0x31; 0x24]] /\ Forall (fun t => In (fst t) l) ((t :: ts) ++ u :: us)).
    { destruct E as [(g & _ & _ & T & _)|[[_ T]|(_ & T & _)]]; eexists; (split; [|exact T]); cbn; tauto. }
    destruct T as (l & J & T). apply Forall_app in T as [T1 T2].
    apply Forall_cons_iff in T1 as [T1 _], T2 as [T2 _], F1 as [F1 _], F2 as [F2 _]. exact (X _ _ _ F1 F2 J T1 T2). }
  assert (D : forall l1 l2 : list Z, forallb (fun x => forallb (fun y => forallb (fun l => negb (existsb (Z.eqb x) l && existsb (Z.eqb y) l))
      [[1; 2; 3; 4; 5]; [0x21; 0x24]; [0x00; 0x31; 0x24]]) l2) l1 = true ->
    forall x y l, In x l1 -> In y l2 -> In l [[1; 2; 3; 4; 5]; [0x21; 0x24]; [0x00; 0x31; 0x24]] -> In x l -> In y l -> False).
  { intros l1 l2 Q x y l X Y L IX IY. rewrite forallb_forall in Q. specialize (Q x X). rewrite forallb_forall in Q. specialize (Q y Y).
    rewrite forallb_forall in Q. specialize (Q l L). apply negb_true_iff, andb_false_iff in Q.
    assert (EX : forall z, In z l -> existsb (Z.eqb z) l = true).
    { intros z Iz. apply existsb_exists. exists z. split; auto. apply Z.eqb_refl. }
    destruct Q as [Q|Q]; rewrite EX in Q by auto; discriminate Q. }
  destruct M1 as [(f & M1 & P1 & BU1)|[[M1 F1]|(M1 & F1 & X1)]]; injection M1 as ->;
  destruct M2 as [(g & M2 & P2 & BU2)|[[M2 F2]|(M2 & F2 & X2)]]; injection M2 as ->; cbn [both].
  - apply K. left. exists (both_gen1 f g). split; auto. split; [now apply Forall_app|now apply built1_app].
  - apply (NO [1; 2; 3; 4; 5] [0x21; 0x24]); [apply BU1|auto|]. apply D. reflexivity.
  - apply (NO [1; 2; 3; 4; 5] [0x00; 0x31; 0x24]); [apply BU1|auto|]. apply D. reflexivity.
  - apply (NO [0x21; 0x24] [1; 2; 3; 4; 5]); [auto|apply BU2|]. apply D. reflexivity.
  - apply K. right. left. rewrite gen2_app. split; auto. now apply Forall_app.
  - destruct (g2_overview (gen2_message 0x21 ts)) as [v|] eqn:O.
    + intros f E. apply K in E. apply overview_in in O as (t & It & Et).
      apply Exists_exists in X2 as (x & Ix & Ex).
      assert (T : Forall (fun t => In (fst t) [1; 2; 3; 4; 5]) (ts ++ us) \/ Forall (fun t => In (fst t) [0x21; 0x24]) (ts ++ us) \/
        Forall (fun t => In (fst t) [0x00; 0x31; 0x24]) (ts ++ us)).
      { destruct E as [(g & _ & _ & T & _)|[[_ T]|(_ & T & _)]]; tauto. }
      rewrite !Forall_forall in T.
      assert (It' : In t (ts ++ us)) by (apply in_app_iff; auto). assert (Ix' : In x (ts ++ us)) by (apply in_app_iff; auto).
      destruct T as [T|[T|T]]; pose proof (T t It') as Q1; pose proof (T x Ix') as Q2; cbn [In] in *; lia.
    + apply (no_overview _ _ _ O) in F1. apply K. right. right. split; [|split].
      * rewrite gen2_app. f_equal. f_equal. rewrite (gen2_weaken 0x31 ts F1), (gen2_weaken 0x21 ts F1) by lia. reflexivity.
      * apply Forall_app. split; auto. eapply Forall_impl; [|exact F1]. cbn. tauto.
      * apply Exists_app. auto.
  - apply (NO [0x00; 0x31; 0x24] [1; 2; 3; 4; 5]); [auto|apply BU2|]. apply D. reflexivity.
  - destruct (g2_overview (gen2_message 0x21 us)) as [v|] eqn:O.
    + intros f E. apply K in E. apply overview_in in O as (t & It & Et).
      apply Exists_exists in X1 as (x & Ix & Ex).
      assert (T : Forall (fun t => In (fst t) [1; 2; 3; 4; 5]) (ts ++ us) \/ Forall (fun t => In (fst t) [0x21; 0x24]) (ts ++ us) \/
        Forall (fun t => In (fst t) [0x00; 0x31; 0x24]) (ts ++ us)).
      { destruct E as [(g & _ & _ & T & _)|[[_ T]|(_ & T & _)]]; tauto. }
      rewrite !Forall_forall in T.
      assert (It' : In t (ts ++ us)) by (apply in_app_iff; auto). assert (Ix' : In x (ts ++ us)) by (apply in_app_iff; auto).
      destruct T as [T|[T|T]]; pose proof (T t It') as Q1; pose proof (T x Ix') as Q2; cbn [In] in *; lia.
    + apply (no_overview _ _ _ O) in F2. apply K. right. right. split; [|split].
      * rewrite gen2_app. f_equal. f_equal. rewrite (gen2_weaken 0x31 us F2), (gen2_weaken 0x21 us F2) by lia. reflexivity.
      * apply Forall_app. split; auto. eapply Forall_impl; [|exact F2]. cbn. tauto.
      * apply Exists_app. auto.
  - apply K. right. right. rewrite gen2_app. split; auto. split; [now apply Forall_app|]. apply Exists_app. auto.
Qed.
Print Assumptions C128_downloads.

(** Downloads of a first-generation vehicle unit and of both versions of the second. *)
Example C128_downloads_example : exists d0 d1 d2 d3 f0 f1 f2 f3,
  bytes_ok d0 /\ bytes_ok d1 /\ bytes_ok d2 /\ bytes_ok d3 /\
  unmarshal_file no_charmap d0 = Ok (vu f0) /\ unmarshal_file no_charmap d1 = Ok (vu f1) /\
  unmarshal_file no_charmap d2 = Ok (vu f2) /\ unmarshal_file no_charmap d3 = Ok (vu f3) /\
  both f0 f0 <> None /\ both f0 f1 = None /\ both f1 f1 <> None /\ both f1 f2 = None /\ both f2 f3 <> None /\ both f3 f1 <> None.
Proof.
  exists (download [(0x04, [0; 0] ++ repeat 5 128)]), (download sample_download),
    (download [(0x24, empty_arrays 2); (0x00, [1; 1]); (0x31, empty_arrays 11)]), (download [(0x24, empty_arrays 2)]).
  do 4 eexists. do 4 (split; [apply bytes_okb_ok; reflexivity|]). do 4 (split; [vm_compute; reflexivity|]).
  cbn. repeat split; discriminate.
Qed.
