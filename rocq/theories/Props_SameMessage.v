(** C115: which vehicle unit downloads give the same message. *)

From Coq Require Import Permutation.
From Verif Require Import Base Enums Chunks DDScalar DDString DDRecord P_String RawTypes P_Records P_RawCard Field P_Scanner.
From Verif Require Import Cert DriverCard Vu Verify Api P_Vu Props_Dump Props_Vu Props_Framed Props_Download.

Definition version_2 (t : transfer) : Prop := In (fst t) [0x00; 0x31].

(** The parts of a download that the message keeps. *)
Definition alike (ts us : list transfer) : Prop :=
  (forall k, ~ In k [0x00; 0x01; 0x21; 0x31] -> values k ts = values k us) /\
  (forall k, In k [0x01; 0x21; 0x31] -> last_one (values k ts) = last_one (values k us)) /\
  (Exists version_2 ts <-> Exists version_2 us).

Lemma values_in k ts x : In (k, x) ts -> In x (values k ts).
Proof.
  intros I. unfold values. change x with (snd (k, x)). apply in_map, filter_In. split; auto. cbn [fst]. apply Z.eqb_refl.
Qed.

Lemma last_one_nil {A} (l : list A) : last_one l = [] -> l = [].
Proof.
  unfold last_one. destruct (rev l) eqn:E; [|discriminate]. intros _. apply (f_equal (@rev A)) in E. now rewrite rev_involutive in E.
Qed.

(** A kind of transfers occurs in both or in neither. *)
Lemma alike_kind ts us k x : alike ts us -> k <> 0x00 -> In (k, x) ts -> values k us <> [].
Proof.
  intros (H1 & H2 & _) N I E. apply values_in in I.
  destruct (in_dec Z.eq_dec k [0x01; 0x21; 0x31]) as [J|J].
  - specialize (H2 k J). rewrite E in H2. cbn in H2. apply last_one_nil in H2. rewrite H2 in I. destruct I.
  - rewrite H1, E in I; [destruct I|]. intros [Q|Q]; [congruence|exact (J Q)].
Qed.

Lemma gen1_v2 l ts : Forall (fun t => In (fst t) l) ts -> ~ In 0x00 l -> ~ In 0x31 l -> ~ Exists version_2 ts.
Proof.
  intros F A B X. apply Exists_exists in X as (t & I & [E|[E|[]]]); rewrite Forall_forall in F; specialize (F t I); rewrite <- E in F; auto.
Qed.

Lemma kinds_split ts (P : transfer -> Prop) : Forall P ts -> ts <> [] -> exists k x, In (k, x) ts /\ P (k, x).
Proof.
  intros F N. destruct ts as [|[k x] ts]; [congruence|]. exists k, x. split; [now left|]. now inversion F.
Qed.

Theorem C115_same_message : forall cm ts us f g, Forall well_formed ts -> Forall well_formed us ->
  bytes_ok (download ts) -> bytes_ok (download us) ->
  unmarshal_file cm (download ts) = Ok (vu f) -> unmarshal_file cm (download us) = Ok (vu g) ->
  (f = g <-> alike ts us).
Proof.
  intros cm ts us f g W1 W2 B1 B2 E1 E2.
  destruct (vu_download cm _ f B1 E1) as (H1 & ts' & D1 & W1' & M1). apply download_inj in D1; auto. subst ts'.
  destruct (vu_download cm _ g B2 E2) as (H2 & us' & D2 & W2' & M2). apply download_inj in D2; auto. subst us'.
  assert (N1 : ts <> []) by (intros ->; discriminate). assert (N2 : us <> []) by (intros ->; discriminate).
  clear E1 E2 B1 B2 H1 H2 W1 W2 W1' W2'.
  assert (VN : forall l ts k, Forall (fun t => In (fst t) l) ts -> ~ In k l -> values k ts = []).
  { intros l vs k F N. now apply (values_none k vs l). }
  destruct M1 as [(f1 & M1 & P1 & BU1)|[[M1 F1]|(M1 & F1 & X1)]]; injection M1 as ->;
  destruct M2 as [(g2 & M2 & P2 & BU2)|[[M2 F2]|(M2 & F2 & X2)]]; injection M2 as ->.
  - pose proof BU1 as (T1 & A1 & A2 & A3 & A4 & A5 & _). pose proof BU2 as (T2 & C1 & C2 & C3 & C4 & C5 & _). split.
    + intros E. injection E as <-. rewrite A1 in C1. rewrite A2 in C2. rewrite A3 in C3. rewrite A4 in C4. rewrite A5 in C5.
      split; [|split].
      * intros k N. destruct (in_dec Z.eq_dec k [0x02; 0x03; 0x04; 0x05]) as [J|J].
        -- repeat destruct J as [<-|J]; auto. destruct J.
        -- rewrite (VN _ ts k T1), (VN _ us k T2); auto; cbn in *; lia.
      * intros k [<-|J]; [exact C1|]. rewrite (VN _ ts k T1), (VN _ us k T2); auto; cbn in *; lia.
      * split; intros X; exfalso; revert X; [apply (gen1_v2 _ ts T1)|apply (gen1_v2 _ us T2)]; cbn; lia.
    + intros (K1 & K2 & _). f_equal. apply (built1_unique cm us); auto.
      destruct BU1 as (_ & _ & _ & _ & _ & _ & Q). split; [exact T2|].
      rewrite A1, A2, A3, A4, A5, (K2 0x01), (K1 0x02), (K1 0x03), (K1 0x04), (K1 0x05) by (cbn; lia). auto 10.
  - pose proof BU1 as (T1 & _). split; [discriminate|]. intros K. exfalso.
    destruct (kinds_split ts _ T1 N1) as (k & x & I & J). cbn [fst] in J. eapply (alike_kind ts us k x K); [cbn in J; lia|exact I|].
    apply (VN _ us k F2). cbn in *; lia.
  - pose proof BU1 as (T1 & _). split; [discriminate|]. intros (_ & _ & K). exfalso. apply K in X2. revert X2. apply (gen1_v2 _ ts T1); cbn; lia.
  - pose proof BU2 as (T2 & _). split; [discriminate|]. intros K. exfalso.
    destruct (kinds_split ts _ F1 N1) as (k & x & I & J). cbn [fst] in J. eapply (alike_kind ts us k x K); [cbn in J; lia|exact I|].
    apply (VN _ us k T2). cbn in *; lia.
  - split.
    + intros E. injection E as E1 E2. split; [|split].
      * intros k N. destruct (Z.eq_dec k 0x24) as [->|J]; [exact E2|]. rewrite (VN _ ts k F1), (VN _ us k F2); auto; cbn in *; lia.
      * intros k J. destruct (Z.eq_dec k 0x21) as [->|Q].
        -- unfold last_one in *. destruct (rev (values 0x21 ts)), (rev (values 0x21 us)); congruence.
        -- rewrite (VN _ ts k F1), (VN _ us k F2); auto; cbn in *; lia.
      * split; intros X; exfalso; revert X; [apply (gen1_v2 _ ts F1)|apply (gen1_v2 _ us F2)]; cbn; lia.
    + intros (K1 & K2 & _). unfold gen2_message. now rewrite (K1 0x24), (K2 0x21) by (cbn; lia).
  - split; [discriminate|]. intros (_ & _ & K). exfalso. apply K in X2. revert X2. apply (gen1_v2 _ ts F1); cbn; lia.
  - pose proof BU2 as (T2 & _). split; [discriminate|]. intros (_ & _ & K). exfalso. apply K in X1. revert X1. apply (gen1_v2 _ us T2); cbn; lia.
  - split; [discriminate|]. intros (_ & _ & K). exfalso. apply K in X1. revert X1. apply (gen1_v2 _ us F2); cbn; lia.
  - split.
    + intros E. injection E as E1 E2. split; [|split].
      * intros k N. destruct (Z.eq_dec k 0x24) as [->|J]; [exact E2|]. rewrite (VN _ ts k F1), (VN _ us k F2); auto; cbn in *; lia.
      * intros k J. destruct (Z.eq_dec k 0x31) as [->|Q].
        -- unfold last_one in *. destruct (rev (values 0x31 ts)), (rev (values 0x31 us)); congruence.
        -- rewrite (VN _ ts k F1), (VN _ us k F2); auto; cbn in *; lia.
      * split; intros _; [exact X2|exact X1].
    + intros (K1 & K2 & _). unfold gen2_message. now rewrite (K1 0x24), (K2 0x31) by (cbn; lia).
Qed.
Print Assumptions C115_same_message.

(** Whether a download is accepted does not depend on the order at all. *)
Theorem C115_any_order : forall cm ts us, Forall well_formed ts -> Permutation ts us -> bytes_ok (download ts) ->
  (exists f, unmarshal_file cm (download ts) = Ok (vu f)) -> exists g, unmarshal_file cm (download us) = Ok (vu g).
Proof.
  intros cm ts us W P B (f & E).
  assert (B' : bytes_ok (download us)).
  { clear - P B. induction P as [|t ts us P IH|t u ts|ts us vs P IH P' IH']; auto.
    - change (bytes_ok (tr_bytes t ++ download us)). change (bytes_ok (tr_bytes t ++ download ts)) in B.
      rewrite bytes_ok_app in *. tauto.
    - change (bytes_ok (tr_bytes t ++ tr_bytes u ++ download ts)). change (bytes_ok (tr_bytes u ++ tr_bytes t ++ download ts)) in B.
      rewrite !bytes_ok_app in *. tauto. }
  assert (PF : forall Q : transfer -> Prop, Forall Q ts -> Forall Q us).
  { intros Q F. rewrite Forall_forall in *. intros t I. apply F. now apply (Permutation_in _ (Permutation_sym P)). }
  assert (NE : ts <> [] -> us <> []) by (intros N ->; apply Permutation_sym, Permutation_nil in P; auto).
  destruct (vu_download cm _ f B E) as (H & ts' & D & W' & M). apply download_inj in D; auto. subst ts'.
  assert (N : ts <> []) by (intros ->; discriminate).
  destruct M as [(f1 & M & P1 & _)|[[M F]|(M & F & X)]].
  - destruct (proj2 (C91_first_generation cm (download us) B')) as (g & G); [|eauto].
    exists us. split; auto. split; auto.
    assert (FR : Forall framed ts); [|now apply PF].
    apply download_bytes in B. rewrite Forall_forall in *. intros t I. apply (framed_iff cm); auto.
  - destruct (proj2 (proj1 (C91_second_generation cm (download us) B'))) as (g & G); [|eauto].
    exists us. split; auto. split; auto. apply (Forall_both _ _ _ _ framed_v1_iff). split; apply PF; auto.
  - destruct (proj2 (proj2 (C91_second_generation cm (download us) B'))) as (g & G); [|eauto].
    exists us. split; [apply (Forall_both _ _ _ _ framed_v2_iff); split; apply PF; auto|]. split; auto.
    apply Exists_exists in X as (t & I & J). apply Exists_exists. exists t. split; auto. now apply (Permutation_in _ P).
Qed.
Print Assumptions C115_any_order.

(** A later overview hides the first one and the days may come before it. *)
Definition one_overview (x : Z) : bytes := [x; 0; 1; 0; 1; 9] ++ concat (repeat [7; 0; 0; 0; 0] 10).

Example C115_example : let ts := [(0x00, [1; 1]); (0x31, one_overview 1); (0x24, empty_arrays 2); (0x31, one_overview 2)] in
  let us := [(0x31, one_overview 2); (0x24, empty_arrays 2)] in
  Forall well_formed ts /\ Forall well_formed us /\ bytes_ok (download ts) /\ bytes_ok (download us) /\
  (exists f, unmarshal_file no_charmap (download ts) = Ok (vu f)) /\ (exists g, unmarshal_file no_charmap (download us) = Ok (vu g)) /\
  alike ts us /\ ~ alike ts [(0x31, one_overview 1); (0x24, empty_arrays 2)].
Proof.
  cbv zeta.
  assert (A2 : arrays 2 (empty_arrays 2)).
  { exists (repeat empty_array 2). split; [reflexivity|]. split; [|reflexivity].
    apply Forall_forall. intros b I. apply repeat_spec in I. subst b. exists 1, [0; 4], [0; 0], []. repeat split; reflexivity. }
  assert (A : forall x, arrays 11 (one_overview x)).
  { intros x. exists ([x; 0; 1; 0; 1; 9] :: repeat [7; 0; 0; 0; 0] 10). split; [reflexivity|]. split; [|reflexivity].
    constructor; [exists x, [0; 1], [0; 1], [9]; repeat split; reflexivity|].
    apply Forall_forall. intros b I. apply repeat_spec in I. subst b. exists 7, [0; 0], [0; 0], []. repeat split; reflexivity. }
  assert (F : forall x, framed_v2 (0x31, one_overview x)) by (intros x; right; left; split; [reflexivity|apply A]).
  assert (F2 : framed_v2 (0x24, empty_arrays 2)) by (right; right; split; [reflexivity|exact A2]).
  assert (F0 : framed_v2 (0x00, [1; 1])) by (left; split; reflexivity).
  assert (W : forall t, framed_v2 t -> well_formed t) by (intros t T; now apply framed_v2_iff in T).
  split; [repeat (apply Forall_cons; [apply W; auto|]); apply Forall_nil|].
  split; [repeat (apply Forall_cons; [apply W; auto|]); apply Forall_nil|].
  split; [apply bytes_okb_ok; reflexivity|]. split; [apply bytes_okb_ok; reflexivity|].
  split; [eexists; vm_compute; reflexivity|]. split; [eexists; vm_compute; reflexivity|]. split.
  - split; [|split].
    + intros k N. unfold values. cbn [filter fst].
      destruct (Z.eqb_spec 0x00 k); [exfalso; apply N; cbn; lia|]. destruct (Z.eqb_spec 0x31 k); [exfalso; apply N; cbn; lia|].
      destruct (0x24 =? k); reflexivity.
    + intros k [<-|[<-|[<-|[]]]]; reflexivity.
    + split; intros _; apply Exists_exists; exists (0x31, one_overview 2); (split; [|right; left; reflexivity]); cbn; auto.
  - intros (_ & H & _). specialize (H 0x31 ltac:(cbn; tauto)). vm_compute in H. discriminate.
Qed.
