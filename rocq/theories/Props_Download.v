(** C91: exactly which first-generation downloads are accepted. *)

From Verif Require Import Base Enums Chunks DDScalar Utf8 DDString DDRecord RawTypes Cert DriverCard Vu Verify Api
  P_Scalar Props_Scalar P_Utf8 P_String Field P_Basic P_Record P_VuRecord Props_Layout Props_Overview Props_VuWrite
  P_OverviewWrite Props_VuActivities P_Vu Props_Vu Props_Framed.

(** The three kinds of transfers that are kept as bytes (Annex 1B, appendix 7). *)
Definition framed_events (d : bytes) : Prop :=
  exists faults events control overs calibrations signature,
    Forall (fun b => length b = 82%nat) faults /\ Forall (fun b => length b = 83%nat) events /\
    length control = 9%nat /\ Forall (fun b => length b = 31%nat) overs /\
    Forall (fun b => length b = 98%nat) calibrations /\ length signature = 128%nat /\
    d = [Z.of_nat (length faults)] ++ concat faults ++ [Z.of_nat (length events)] ++ concat events ++
        control ++ [Z.of_nat (length overs)] ++ concat overs ++
        [Z.of_nat (length calibrations)] ++ concat calibrations ++ signature.

Definition framed_speed (d : bytes) : Prop :=
  exists n blocks signature,
    length n = 2%nat /\ num n = Z.of_nat (length blocks) /\ Forall (fun b => length b = 64%nat) blocks /\
    length signature = 128%nat /\ d = n ++ concat blocks ++ signature.

Definition framed_technical (d : bytes) : Prop :=
  exists identification calibrations signature,
    length identification = 136%nat /\ Forall (fun b => length b = 167%nat) calibrations /\
    length signature = 128%nat /\
    d = identification ++ [Z.of_nat (length calibrations)] ++ concat calibrations ++ signature.

Definition framed (t : transfer) : Prop :=
  (fst t = 0x01 /\ framed_overview (snd t)) \/ (fst t = 0x02 /\ framed_day (snd t)) \/
  (fst t = 0x03 /\ framed_events (snd t)) \/ (fst t = 0x04 /\ framed_speed (snd t)) \/
  (fst t = 0x05 /\ framed_technical (snd t)).

(** ** The frames and the sizes computed *)

Lemma fills_end tail v : fills [] tail v <-> length v = tail.
Proof. split; intros H; [now inversion H|now constructor]. Qed.

Lemma fills_counted s w n l tail v : (0 < n)%nat -> fills (counted s w (Z.of_nat n) :: l) tail v <->
  exists a h bs e, length a = s /\ length h = w /\ num h = Z.of_nat (length bs) /\
    Forall (fun b => length b = n) bs /\ fills l tail e /\ v = a ++ h ++ concat bs ++ e.
Proof.
  intros N. split.
  - intros H. inversion H as [|st l' tl a h b e La Lh Lb He]; subst. cbn [counted st_skip st_head st_body] in *.
    assert (P : 0 <= be h) by nia.
    assert (Q : length b = (Z.to_nat (be h) * n)%nat).
    { apply Nat2Z.inj. rewrite Lb, Nat2Z.inj_mul, Z2Nat.id by exact P. reflexivity. }
    exists a, h, (chunks n b), e. rewrite chunks_count, Q, Nat.div_mul by lia. rewrite num_be.
    do 2 (split; [auto|]). split; [now rewrite Z2Nat.id|]. split; [now apply chunks_each|]. split; [auto|].
    rewrite concat_chunks by exact N. rewrite Q, Nat.div_mul by lia. rewrite firstn_all2 by lia. reflexivity.
  - intros (a & h & bs & e & La & Lh & Nh & A & He & ->). constructor; auto.
    cbn [counted st_body]. rewrite num_be in Nh. rewrite Nh, (concat_length_uniform n) by exact A. lia.
Qed.

Lemma single (h : bytes) n : length h = 1%nat -> num h = n -> h = [n].
Proof. destruct h as [|x [|? ?]]; try discriminate. cbn. intros _ <-. reflexivity. Qed.

Lemma num_one n : num [n] = n.
Proof. reflexivity. Qed.

Lemma nil_length {A} (a : list A) : length a = 0%nat -> a = [].
Proof. now destruct a. Qed.

Ltac counted_out H :=
  apply fills_counted in H; [|lia];
  let a := fresh "a" in let h := fresh "h" in let bs := fresh "bs" in let e := fresh "e" in
  let La := fresh "La" in let Lh := fresh "Lh" in let Nh := fresh "Nh" in let A := fresh "A" in
  destruct H as (a & h & bs & e & La & Lh & Nh & A & H & ->);
  try (apply nil_length in La; subst a);
  try (apply (single h _ Lh) in Nh; subst h; clear Lh).

Lemma overview_fills d : framed_overview d -> fills [counted 491 1 98; counted 0 1 31] 128 d.
Proof.
  intros (ms & vc & vin & na & nu & now & tm & tx & sl & dt & dc & dn & ls & cs & sg &
      L1 & L2 & L3 & L4 & L5 & L6 & L7 & L8 & L9 & L10 & L11 & FL & FC & -> & _).
  change 98 with (Z.of_nat 98). change 31 with (Z.of_nat 31). apply fills_counted; [lia|].
  exists (ms ++ vc ++ vin ++ ([na] ++ nu) ++ now ++ (tm ++ tx) ++ [sl] ++ (dt ++ dc ++ dn)), [Z.of_nat (length ls)], ls,
    ([Z.of_nat (length cs)] ++ concat cs ++ sg).
  split; [rewrite !app_length, L1, L2, L3, L4, L5, L6, L7, L8, L9, L10; reflexivity|].
  split; [reflexivity|]. split; [apply num_one|]. split; [exact FL|]. split.
  - apply fills_counted; [lia|]. exists [], [Z.of_nat (length cs)], cs, sg.
    split; [reflexivity|]. split; [reflexivity|]. split; [apply num_one|]. split; [exact FC|]. split; [now apply fills_end|reflexivity].
  - unfold overview_bytes. now rewrite <- !app_assoc.
Qed.

Lemma day_fills d : framed_day d -> fills [counted 7 2 129; counted 0 2 2; counted 0 1 28; counted 0 2 5] 128 d.
Proof.
  intros (da & od & n1 & iws & n2 & chs & n3 & pls & n4 & cds & sg & L1 & L2 & L3 & L4 & L5 & L6 & N1 & N2 & N3 & N4 &
      A1 & A2 & A3 & A4 & -> & _).
  change 129 with (Z.of_nat 129). change 2 with (Z.of_nat 2). change 28 with (Z.of_nat 28). change 5 with (Z.of_nat 5).
  apply fills_counted; [lia|]. unfold activities_bytes.
  exists (da ++ od), n1, iws, (n2 ++ concat chs ++ [n3] ++ concat pls ++ n4 ++ concat cds ++ sg).
  split; [rewrite app_length, L1, L2; reflexivity|]. do 3 (split; [assumption|]). split; [|now rewrite <- !app_assoc].
  apply fills_counted; [lia|]. exists [], n2, chs, ([n3] ++ concat pls ++ n4 ++ concat cds ++ sg).
  split; [reflexivity|]. do 3 (split; [assumption|]). split; [|reflexivity].
  apply fills_counted; [lia|]. exists [], [n3], pls, (n4 ++ concat cds ++ sg).
  split; [reflexivity|]. split; [reflexivity|]. split; [now rewrite num_one|]. split; [assumption|]. split; [|reflexivity].
  apply fills_counted; [lia|]. exists [], n4, cds, sg.
  split; [reflexivity|]. do 3 (split; [assumption|]). split; [now apply fills_end|reflexivity].
Qed.

Lemma events_fills d : fills [counted 0 1 82; counted 0 1 83; counted 9 1 31; counted 0 1 98] 128 d <-> framed_events d.
Proof.
  change 82 with (Z.of_nat 82). change 83 with (Z.of_nat 83). change 31 with (Z.of_nat 31). change 98 with (Z.of_nat 98). split.
  - intros H. do 4 counted_out H. apply fills_end in H. do 6 eexists. do 6 (split; [eassumption|]). reflexivity.
  - intros (fs & es & co & os & cs & sg & A1 & A2 & Lc & A3 & A4 & Ls & ->).
    apply fills_counted; [lia|]. exists [], [Z.of_nat (length fs)], fs. eexists.
    split; [reflexivity|]. split; [reflexivity|]. split; [apply num_one|]. split; [assumption|]. split; [|reflexivity].
    apply fills_counted; [lia|]. exists [], [Z.of_nat (length es)], es. eexists.
    split; [reflexivity|]. split; [reflexivity|]. split; [apply num_one|]. split; [assumption|]. split; [|reflexivity].
    apply fills_counted; [lia|]. exists co, [Z.of_nat (length os)], os. eexists.
    split; [assumption|]. split; [reflexivity|]. split; [apply num_one|]. split; [assumption|]. split; [|reflexivity].
    apply fills_counted; [lia|]. exists [], [Z.of_nat (length cs)], cs. eexists.
    split; [reflexivity|]. split; [reflexivity|]. split; [apply num_one|]. split; [assumption|]. split; [|reflexivity].
    now apply fills_end.
Qed.

Lemma speed_fills d : fills [counted 0 2 64] 128 d <-> framed_speed d.
Proof.
  change 64 with (Z.of_nat 64). split.
  - intros H. counted_out H. apply fills_end in H. do 3 eexists. do 4 (split; [eassumption|]). reflexivity.
  - intros (n & bs & sg & L & N & A & Ls & ->). apply fills_counted; [lia|]. exists [], n, bs, sg.
    split; [reflexivity|]. do 3 (split; [assumption|]). split; [now apply fills_end|reflexivity].
Qed.

Lemma technical_fills d : fills [counted 136 1 167] 128 d <-> framed_technical d.
Proof.
  change 167 with (Z.of_nat 167). split.
  - intros H. counted_out H. apply fills_end in H. do 3 eexists. do 3 (split; [eassumption|]). reflexivity.
  - intros (i & cs & sg & L & A & Ls & ->). apply fills_counted; [lia|]. exists i, [Z.of_nat (length cs)], cs, sg.
    split; [assumption|]. split; [reflexivity|]. split; [apply num_one|]. split; [assumption|]. split; [now apply fills_end|reflexivity].
Qed.

(** ** Transfers *)

Lemma is_ok_ex {A} (r : res A) : is_ok r = true <-> exists x, r = Ok x.
Proof. destruct r as [x| |]; cbn; split; try discriminate; eauto; intros (y & E); discriminate. Qed.

Lemma framed_iff cm t : bytes_ok (snd t) -> (well_formed t /\ parses1 cm t) <-> framed t.
Proof.
  destruct t as [k v]. cbn [snd]. intros B. split.
  - intros [(l & tail & I & W) P]. cbn [fst snd] in *. pose proof (parses1_trep cm (k, v) P) as K. cbn [fst] in K.
    unfold framed. cbn [fst snd]. unfold parses1 in P. cbn [fst snd] in P.
    destruct K as [K|[K|[K|[K|[K|[]]]]]]; subst k.
    + left. split; [reflexivity|]. apply is_ok_ex in P. now apply (C90_overview_accepted cm) in P.
    + right. left. split; [reflexivity|]. apply is_ok_ex in P. now apply (C90_day_accepted cm) in P.
    + do 2 right. left. split; [reflexivity|]. apply events_fills. cbn in I. repeat destruct I as [I|I]; try discriminate I; try (injection I as <- <-; exact W); destruct I.
    + do 3 right. left. split; [reflexivity|]. apply speed_fills. cbn in I. repeat destruct I as [I|I]; try discriminate I; try (injection I as <- <-; exact W); destruct I.
    + do 4 right. split; [reflexivity|]. apply technical_fills. cbn in I. repeat destruct I as [I|I]; try discriminate I; try (injection I as <- <-; exact W); destruct I.
  - unfold framed, well_formed, parses1. cbn [fst snd].
    intros [[-> H]|[[-> H]|[[-> H]|[[-> H]|[-> H]]]]].
    + split; [|apply is_ok_ex; now apply (C90_overview_accepted cm)].
      eexists. eexists. split; [right; left; reflexivity|]. now apply overview_fills.
    + split; [|apply is_ok_ex; now apply (C90_day_accepted cm)].
      eexists. eexists. split; [do 2 right; left; reflexivity|]. now apply day_fills.
    + split; [|left; reflexivity]. eexists. eexists. split; [do 3 right; left; reflexivity|]. now apply events_fills.
    + split; [|right; left; reflexivity]. eexists. eexists. split; [do 4 right; left; reflexivity|]. now apply speed_fills.
    + split; [|do 2 right; left; reflexivity]. eexists. eexists. split; [do 5 right; left; reflexivity|]. now apply technical_fills.
Qed.

Lemma download_bytes ts : bytes_ok (download ts) -> Forall (fun t => bytes_ok (snd t)) ts.
Proof.
  induction ts as [|t ts IH]; intros B; [constructor|].
  change (download (t :: ts)) with (tr_bytes t ++ download ts) in B. rewrite bytes_ok_app in B. destruct B as [B1 B2].
  unfold tr_bytes in B1. apply bytes_ok_cons in B1 as [_ B1]. apply bytes_ok_cons in B1 as [_ B1]. constructor; auto.
Qed.

(** A download is read as one of the first generation exactly when it is a
    non-empty sequence of transfers of the five kinds, each with its documented parts
    and nothing between or after them; of the contents only the card types in the
    overview and the days and the codes of the places matter. *)
Theorem C91_first_generation : forall cm d, bytes_ok d ->
  ((exists g, unmarshal_file cm d = Ok (vu (VuGen1 g))) <->
   exists ts, ts <> [] /\ Forall framed ts /\ d = download ts).
Proof.
  intros cm d B. split.
  - intros (g & E). destruct (vu_download cm d _ B E) as (H & ts & -> & W & M).
    exists ts. split; [intros ->; discriminate|]. split; [|reflexivity].
    destruct M as [(g' & _ & P & _)|[[M _]|(M & _)]]; [|discriminate|discriminate].
    apply download_bytes in B. clear - W P B. induction ts as [|t ts IH]; [constructor|].
    apply Forall_cons_iff in W as [W1 W], P as [P1 P], B as [B1 B]. constructor; [|auto]. now apply (framed_iff cm).
  - intros (ts & N & A & ->).
    assert (WP : Forall well_formed ts /\ Forall (parses1 cm) ts).
    { pose proof (download_bytes ts B) as B'. clear - A B'. induction ts as [|t ts IH]; [split; constructor|].
      apply Forall_cons_iff in A as [A1 A], B' as [B1 B]. destruct (IH A B) as [W P].
      apply (framed_iff cm) in A1 as [W1 P1]; [|assumption]. split; constructor; auto. }
    destruct WP as [W P]. destruct ts as [|[k v] ts]; [congruence|].
    pose proof (vu_spec cm _ B (download_first k v ts)) as [_ V].
    pose proof (download_splits ((k, v) :: ts) W) as (rs & S & Q & _).
    assert (W' : Forall well_formed (map tr_of rs)) by now rewrite Q.
    assert (P' : Forall (parses1 cm) (map tr_of rs)) by now rewrite Q.
    apply (fold_gen1_ok cm rs W' empty_gen1) in P' as (g & G).
    exists g. apply V. exists ((k, v) :: ts). split; [reflexivity|]. split; [exact W|]. left. exists g.
    split; [reflexivity|]. split; [exact P|].
    pose proof (fold_built1 cm rs [] empty_gen1 g (empty_built1 cm) G) as BU. now rewrite <- Q.
Qed.
Print Assumptions C91_first_generation.

(** ** The second generation *)

(** A record array: the type of the records, their size, their number, the records. *)
Definition record_array (b : bytes) : Prop :=
  exists kind size count records,
    length size = 2%nat /\ length count = 2%nat /\
    Z.of_nat (length records) = num size * num count /\ b = [kind] ++ size ++ count ++ records.

Definition arrays (n : nat) (d : bytes) : Prop :=
  exists bs, length bs = n /\ Forall record_array bs /\ d = concat bs.

Lemma arrays_fills n : forall d, fills (repeat array n) 0 d <-> arrays n d.
Proof.
  induction n as [|n IH]; intros d; cbn [repeat].
  - rewrite fills_end. split.
    + intros L. apply nil_length in L. subst d. exists []. repeat split; constructor.
    + intros (bs & L & _ & ->). apply nil_length in L. now subst bs.
  - split.
    + intros H. inversion H as [|st l' tl a h b e La Lh Lb He]; subst. cbn [array st_skip st_head st_body] in *.
      apply nil_length in La. subst a. apply IH in He as (bs & L & A & ->).
      exists ((h ++ b) :: bs). split; [cbn; now rewrite L|]. split; [|cbn; now rewrite <- app_assoc].
      constructor; [|exact A]. exists (nth 0 h 0), (sub h 1 2), (sub h 3 2), b.
      split; [apply sub_length; lia|]. split; [apply sub_length; lia|]. split; [now rewrite !num_be|].
      rewrite (sub_parts_3 h 1 2 2) at 1 by lia. rewrite (one_byte (sub h 0 1)) by (apply sub_length; lia).
      rewrite nth_sub by lia. now rewrite <- !app_assoc.
    + intros (bs & L & A & ->). destruct bs as [|b bs]; [discriminate|]. injection L as L.
      apply Forall_cons_iff in A as [(k & s & c & r & Ls & Lc & N & ->) A].
      cbn [concat]. replace (([k] ++ s ++ c ++ r) ++ concat bs) with ([] ++ ([k] ++ s ++ c) ++ r ++ concat bs)
        by (cbn [List.app]; now rewrite <- !app_assoc).
      constructor; [reflexivity|rewrite !app_length, Ls, Lc; reflexivity| |apply IH; exists bs; auto].
      cbn [array st_body]. rewrite N, !num_be. f_equal; f_equal; destruct s as [|s1 [|s2 [|? ?]]]; try discriminate;
        destruct c as [|c1 [|c2 [|? ?]]]; try discriminate; reflexivity.
Qed.

Definition framed_v1 (t : transfer) : Prop :=
  (fst t = 0x21 /\ arrays 11 (snd t)) \/ (fst t = 0x24 /\ arrays 2 (snd t)).

Definition framed_v2 (t : transfer) : Prop :=
  (fst t = 0x00 /\ length (snd t) = 2%nat) \/ (fst t = 0x31 /\ arrays 11 (snd t)) \/ (fst t = 0x24 /\ arrays 2 (snd t)).

Ltac pick I W := cbn in I; repeat destruct I as [I|I]; try discriminate I; try (injection I as <- <-; exact W); destruct I.

Lemma framed_v1_iff t : (well_formed t /\ In (fst t) [0x21; 0x24]) <-> framed_v1 t.
Proof.
  destruct t as [k v]. unfold framed_v1, well_formed. cbn [fst snd]. split.
  - intros [(l & tail & I & W) [<-|[<-|[]]]].
    + left. split; [reflexivity|]. apply arrays_fills. pick I W.
    + right. split; [reflexivity|]. apply arrays_fills. pick I W.
  - intros [[-> H]|[-> H]]; apply arrays_fills in H; (split; [do 2 eexists; split; [|exact H]|]); cbn; tauto.
Qed.

Lemma framed_v2_iff t : (well_formed t /\ In (fst t) [0x00; 0x31; 0x24]) <-> framed_v2 t.
Proof.
  destruct t as [k v]. unfold framed_v2, well_formed. cbn [fst snd]. split.
  - intros [(l & tail & I & W) [<-|[<-|[<-|[]]]]].
    + left. split; [reflexivity|]. apply fills_end. pick I W.
    + right. left. split; [reflexivity|]. apply arrays_fills. pick I W.
    + do 2 right. split; [reflexivity|]. apply arrays_fills. pick I W.
  - intros [[-> H]|[[-> H]|[-> H]]]; [apply fills_end in H| |]; try apply arrays_fills in H;
      (split; [do 2 eexists; split; [|exact H]|]); cbn; tauto.
Qed.

Lemma Forall_both {A} (P Q R : A -> Prop) l : (forall x, (P x /\ Q x) <-> R x) ->
  (Forall P l /\ Forall Q l) <-> Forall R l.
Proof.
  intros H. split.
  - intros [A1 A2]. induction l as [|x l IH]; [constructor|]. apply Forall_cons_iff in A1 as [? ?], A2 as [? ?].
    constructor; [apply H; auto|auto].
  - intros A1. split; eapply Forall_impl; [|exact A1| |exact A1]; intros x X; now apply H in X.
Qed.

(** A download is read as one of the second generation exactly when it is a sequence
    of overviews, detailed speeds and, in version 2, interface versions, made of the
    right number of record arrays; nothing in the record arrays matters.  Whether an
    overview or interface version of version 2 is there decides between the versions. *)
Theorem C91_second_generation : forall cm d, bytes_ok d ->
  ((exists g, unmarshal_file cm d = Ok (vu (VuGen2V1 g))) <->
   exists ts, ts <> [] /\ Forall framed_v1 ts /\ d = download ts) /\
  ((exists g, unmarshal_file cm d = Ok (vu (VuGen2V2 g))) <->
   exists ts, Forall framed_v2 ts /\ Exists (fun t => In (fst t) [0x00; 0x31]) ts /\ d = download ts).
Proof.
  intros cm d B. split; split.
  - intros (g & E). destruct (vu_download cm d _ B E) as (H & ts & -> & W & M).
    exists ts. split; [intros ->; discriminate|]. split; [|reflexivity].
    destruct M as [(g' & M & _)|[[_ M]|(M & _)]]; [discriminate| |discriminate].
    apply (Forall_both _ _ _ _ framed_v1_iff). auto.
  - intros (ts & N & A & ->). apply (Forall_both _ _ _ _ framed_v1_iff) in A as [W A].
    destruct ts as [|[k v] ts]; [congruence|].
    pose proof (vu_spec cm _ B (download_first k v ts)) as [_ V]. eexists. apply V.
    exists ((k, v) :: ts). split; [reflexivity|]. split; [exact W|]. right. left. split; [reflexivity|exact A].
  - intros (g & E). destruct (vu_download cm d _ B E) as (H & ts & -> & W & M).
    destruct M as [(g' & M & _)|[[M _]|(_ & M & X)]]; [discriminate|discriminate|].
    exists ts. split; [|split; [exact X|reflexivity]]. apply (Forall_both _ _ _ _ framed_v2_iff). auto.
  - intros (ts & A & X & ->). apply (Forall_both _ _ _ _ framed_v2_iff) in A as [W A].
    destruct ts as [|[k v] ts]; [inversion X|].
    pose proof (vu_spec cm _ B (download_first k v ts)) as [_ V]. eexists. apply V.
    exists ((k, v) :: ts). split; [reflexivity|]. split; [exact W|]. right. right. split; [reflexivity|]. split; [exact A|exact X].
Qed.
Print Assumptions C91_second_generation.

(** A download of all five kinds, and the same with a byte more. *)
Definition five : bytes :=
  download [(0x01, demo_overview 2); (0x02, day 1 13);
            (0x03, [1] ++ repeat 7 82 ++ [0] ++ repeat 0 9 ++ [0] ++ [1] ++ repeat 9 98 ++ repeat 5 128);
            (0x04, [0; 2] ++ repeat 3 128 ++ repeat 5 128);
            (0x05, repeat 1 136 ++ [1] ++ repeat 2 167 ++ repeat 5 128)].

Definition one_array : bytes := [7; 0; 3; 0; 2; 1; 2; 3; 4; 5; 6].

Example C91_example :
  is_ok (unmarshal_file (fun _ b => b) five) = true /\ is_ok (unmarshal_file (fun _ b => b) (five ++ [0])) = false /\
  is_ok (unmarshal_file (fun _ b => b) (download [(0x04, [0; 2] ++ repeat 3 127 ++ repeat 5 128)])) = false /\
  is_ok (unmarshal_file (fun _ b => b) (download [(0x21, concat (repeat one_array 11)); (0x24, one_array ++ one_array)])) = true /\
  is_ok (unmarshal_file (fun _ b => b) (download [(0x00, [1; 1]); (0x31, concat (repeat one_array 11))])) = true /\
  is_ok (unmarshal_file (fun _ b => b) (download [(0x31, concat (repeat one_array 10))])) = false.
Proof. repeat split; vm_compute; reflexivity. Qed.
