(** C10 to C15: what an accepted driver card dump becomes.

    [dumped], [dumped_ok], [dump], [u_gen2] and [u_signature] (P_Dump) describe
    dumps; [field_of] there is the table of message fields by file identifier and
    generation. *)

From Coq Require Import Permutation.
From Verif Require Import Base Enums Chunks DDScalar RawTypes RawCard P_RawCard Infer Props_RawCard.
From Verif Require Import CardBasic P_Records Cert P_Cert DriverCard P_Driver Vu Verify Api P_Dump Props_Dump.
From Verif Require Props_Cert.

(** Every accepted driver card is a dump of data records with their signatures, so
    theorems about [accepted] cover every accepted byte string. *)
Theorem accepted_covers : forall cm d f, bytes_ok d ->
  (unmarshal_file cm d = Ok f /\ file_type f = FILE_DRIVER_CARD <->
   exists us c, Forall dumped_ok us /\ d = dump us /\ accepted cm us c /\
     f = mkFile FILE_DRIVER_CARD None (Some c) None).
Proof.
  intros cm d f B. split.
  - intros [E T]. destruct (proj1 (C01_dispatch cm d B) f E) as [(v & ->)|[(c & ->)|(rs & ->)]]; try discriminate.
    destruct (accepted_bytes cm d c B E) as (us & V & D & A). exists us, c. auto.
  - intros (us & c & V & -> & A & ->). auto.
Qed.

(** ** Small dumps for examples *)

Definition icc_unit : dumped := mkDumped 0x0002 0 (zeros 25) None.
Definition ic_unit : dumped := mkDumped 0x0005 0 [1; 2; 3; 4; 5; 6; 7; 8] None.

Definition dumped_okb (u : dumped) : bool :=
  (0 <=? u_fid u) && (u_fid u <? 65536) && (0 <=? u_app u) && (u_app u <? 256) && negb (Z.odd (u_app u)) &&
  bytes_okb (u_val u) && (Z.of_nat (length (u_val u)) <=? 65530) &&
  match u_sig u with
  | None => true
  | Some (a, s) => (0 <=? a) && (a <? 256) && Z.odd a && bytes_okb s && (Z.of_nat (length s) <=? 65530)
  end.

Lemma dumped_okb_ok us : forallb dumped_okb us = true -> Forall dumped_ok us.
Proof.
  rewrite forallb_forall, Forall_forall. intros H u I. specialize (H u I). unfold dumped_okb in H.
  rewrite !andb_true_iff in H. destruct H as (((((((A & B) & C) & D) & O) & E) & L) & SG).
  apply bytes_okb_ok in E. apply Z.leb_le in A, C, L. apply Z.ltb_lt in B, D. apply negb_true_iff in O.
  unfold dumped_ok, byte_ok. split; [auto|]. split; [auto|]. split; [auto|]. split; [auto|]. split; [auto|].
  destruct (u_sig u) as [[a s]|]; auto. rewrite !andb_true_iff in SG. destruct SG as ((((A' & B') & O') & E') & L').
  apply bytes_okb_ok in E'. apply Z.leb_le in A', L'. apply Z.ltb_lt in B'. auto.
Qed.

Definition driver_ok (us : list dumped) : bool :=
  forallb dumped_okb us &&
  match unmarshal_file no_charmap (dump us) with Ok f => file_type f =? FILE_DRIVER_CARD | _ => false end.

Lemma driver_ok_accepted us : driver_ok us = true -> Forall dumped_ok us /\ exists c, accepted no_charmap us c.
Proof.
  unfold driver_ok. rewrite andb_true_iff. intros [A B]. apply dumped_okb_ok in A. split; auto.
  apply driver_result; auto. now apply dump_bytes_ok.
Qed.

(** * C10: data is filed under the application it was read from *)

Definition misfiled_fids : list Z := [0x0523; 0x0524; 0x0525].

Lemma field_app fid g s : field_of fid g = Some s ->
  match slot_app s with
  | Master => In fid [0x0002; 0x0005]
  | Gen1 => g = false
  | Gen2 => g = true \/ In fid misfiled_fids
  end.
Proof.
  unfold field_of. destruct (find _ fields_table) as [[[f s1] s2]|] eqn:F; [|discriminate].
  apply find_some in F as [I E]. cbn [fst] in E. apply Z.eqb_eq in E. subst f.
  assert (T : forallb (fun p : Z * option slot * option slot =>
     match p with (f, s1, s2) =>
       match s1 with
       | None => true
       | Some s => match slot_app s with Master => existsb (Z.eqb f) [2; 5] | Gen1 => true | Gen2 => existsb (Z.eqb f) misfiled_fids end
       end &&
       match s2 with
       | None => true
       | Some s => match slot_app s with Master => existsb (Z.eqb f) [2; 5] | Gen1 => false | Gen2 => true end
       end
     end) fields_table = true) by reflexivity.
  rewrite forallb_forall in T. specialize (T _ I). cbn beta iota in T. apply andb_true_iff in T as [T1 T2].
  destruct g; intros ->.
  - destruct (slot_app s); auto; try discriminate. now apply existsb_eqb.
  - destruct (slot_app s); auto; [now apply existsb_eqb|right; now apply existsb_eqb].
Qed.

Lemma gives_fun cm us os os' : Forall2 (gives cm) us os -> Forall2 (gives cm) us os' -> os = os'.
Proof.
  intros G. revert os'. induction G as [|u o us os U G IH]; intros os' G'; inversion G' as [|? o' ? os2 U' G2]; subst; auto.
  f_equal; auto. unfold gives in U, U'. destruct (u_field u).
  - destruct U as (x & E & _ & ->), U' as (x' & E' & _ & ->). congruence.
  - destruct U as [_ ->], U' as [_ ->]. auto.
Qed.

Lemma gives_filter cm p us os : Forall2 (gives cm) us os ->
  exists os', Forall2 (gives cm) (filter p us) os' /\
    (forall s d, (forall u, In u us -> u_field u = Some s -> p u = true) -> latest s os d = latest s os' d) /\
    (forall a, (forall u s, In u us -> u_field u = Some s -> slot_app s = a -> p u = true) ->
       existsb (in_app a) os = existsb (in_app a) os').
Proof.
  induction 1 as [|u o us os U G IH]; [exists []; split; [constructor|auto]|]. destruct IH as (os' & G' & L & X).
  cbn [filter]. destruct (p u) eqn:P.
  - exists (o :: os'). split; [constructor; auto|]. split.
    + intros s d H. cbn [latest]. destruct o; apply L; intros v I; apply H; now right.
    + intros a H. cbn [existsb]. f_equal. apply X. intros v s I. apply H. now right.
  - exists os'. split; auto. split.
    + intros s d H. cbn [latest]. unfold gives in U. destruct (u_field u) as [t|] eqn:F.
      * destruct U as (x & _ & _ & ->). rewrite entry_at_other.
        -- apply L. intros v I. apply H. now right.
        -- cbn [fl_slot]. intros ->. rewrite (H u) in P; auto; [discriminate|now left].
      * destruct U as [_ ->]. apply L. intros v I. apply H. now right.
    + intros a H. cbn [existsb]. rewrite (X a) by (intros v s I; apply H; now right).
      unfold gives in U. destruct (u_field u) as [t|] eqn:F.
      * destruct U as (x & _ & _ & ->). cbn [in_app fl_slot]. destruct (app_eqb a (slot_app t)) eqn:Q; auto.
        apply app_eqb_eq in Q. rewrite (H u t) in P; auto; [discriminate|now left].
      * destruct U as [_ ->]. reflexivity.
Qed.

(** Missing from the full claim: files 0523, 0524 and 0525 of the first generation,
    which land in the second-generation application (see the refutation).  For
    noninterference a signature counts with the data record in front of it. *)
Theorem C10_applications_partial : forall cm us c, Forall dumped_ok us -> accepted cm us c ->
  (* every value and signature found in a field was read from a record of the right
     generation *)
  (forall s x sg, slot_of_card c s = Some (x, sg) -> exists u, In u us /\
     unmarshal_content cm s (u_val u) = Ok x /\ sg = u_signature u /\ field_of (u_fid u) (u_gen2 u) = Some s /\
     match slot_app s with
     | Master => In (u_fid u) [0x0002; 0x0005]
     | Gen1 => u_gen2 u = false
     | Gen2 => u_gen2 u = true \/ In (u_fid u) [0x0523; 0x0524; 0x0525]
     end) /\
  (* an application is there only if a record for it is *)
  (dc_has c Gen1 = true -> exists u, In u us /\ u_gen2 u = false) /\
  (dc_has c Gen2 = true -> exists u, In u us /\ (u_gen2 u = true \/ In (u_fid u) [0x0523; 0x0524; 0x0525])) /\
  (* the first-generation application depends on first-generation records only,
     the second-generation one on the others *)
  (forall us' c', Forall dumped_ok us' -> accepted cm us' c' ->
     (filter (fun u => negb (u_gen2 u)) us = filter (fun u => negb (u_gen2 u)) us' ->
      dc_has c Gen1 = dc_has c' Gen1 /\
      forall s, slot_app s = Gen1 -> slot_of_card c s = slot_of_card c' s) /\
     ((forall u, In u us \/ In u us' -> In (u_fid u) [0x0523; 0x0524; 0x0525] -> u_gen2 u = true) ->
      filter u_gen2 us = filter u_gen2 us' ->
      dc_has c Gen2 = dc_has c' Gen2 /\
      forall s, slot_app s = Gen2 -> slot_of_card c s = slot_of_card c' s)).
Proof.
  intros cm us c V A. apply accepted_iff in A as (os & _ & _ & G & ->); auto.
  split; [|split; [|split]].
  - intros s x sg E. destruct (card_some cm us os s (x, sg) G E) as (a & u & b & -> & F & _ & _ & X & Y).
    exists u. split; [apply in_app_iff; right; now left|]. cbn [fst snd] in *. split; auto. split; auto. split; auto.
    exact (field_app _ _ _ F).
  - intros H. apply (card_has cm us os Gen1 G) in H as [H|(u & s & I & F & Q)]; [discriminate|].
    exists u. split; auto. apply field_app in F. now rewrite Q in F.
  - intros H. apply (card_has cm us os Gen2 G) in H as [H|(u & s & I & F & Q)]; [discriminate|].
    exists u. split; auto. apply field_app in F. now rewrite Q in F.
  - intros us' c' V' A'. apply accepted_iff in A' as (os' & _ & _ & G' & ->); auto. split.
    + intros E. destruct (gives_filter cm (fun u => negb (u_gen2 u)) us os G) as (p & P & L & X).
      destruct (gives_filter cm (fun u => negb (u_gen2 u)) us' os' G') as (p' & P' & L' & X').
      rewrite E in P. pose proof (gives_fun _ _ _ _ P P') as <-.
      assert (K : forall u s, u_field u = Some s -> slot_app s = Gen1 -> negb (u_gen2 u) = true).
      { intros u s F Q. apply field_app in F. rewrite Q in F. now rewrite F. }
      split.
      * rewrite !card_of_has. cbn [app_eqb orb]. rewrite X, X'; eauto.
      * intros s Q. rewrite !card_of_slot, L, L'; eauto.
    + intros M E. destruct (gives_filter cm u_gen2 us os G) as (p & P & L & X).
      destruct (gives_filter cm u_gen2 us' os' G') as (p' & P' & L' & X').
      rewrite E in P. pose proof (gives_fun _ _ _ _ P P') as <-.
      assert (K : forall u s, In u us \/ In u us' -> u_field u = Some s -> slot_app s = Gen2 -> u_gen2 u = true).
      { intros u s I F Q. apply field_app in F. rewrite Q in F. destruct F as [F|F]; auto. }
      split.
      * rewrite !card_of_has. cbn [app_eqb orb]. rewrite X, X'; eauto.
      * intros s Q. rewrite !card_of_slot, L, L'; eauto.
Qed.
Print Assumptions C10_applications_partial.

(** A first-generation record fills the second-generation application. *)
Theorem C10_applications_refuted : exists us c e, Forall dumped_ok us /\ accepted no_charmap us c /\
  Forall (fun u => u_app u = 0) us /\ slot_of_card c S2_app_v2 = Some e.
Proof.
  set (us := [icc_unit; mkDumped 0x0525 0 [1; 2; 3; 4] None]).
  destruct (driver_ok_accepted us) as (V & c & A); [vm_compute; reflexivity|].
  assert (Q := A). apply accepted_iff in Q as (os & _ & _ & G & E); auto.
  destruct (card_last no_charmap us os S2_app_v2 (mkDumped 0x0525 0 [1; 2; 3; 4] None) [icc_unit] [] G) as (x & _ & _ & X);
    [reflexivity|reflexivity|constructor|].
  exists us, c. eexists. split; [exact V|]. split; [exact A|]. split; [repeat constructor|]. subst c. exact X.
Qed.
Print Assumptions C10_applications_refuted.

Example C10_example :
  let us := [icc_unit; mkDumped 0x0501 0 (zeros 10) (Some (1, [7])); mkDumped 0x0525 2 [1; 2; 3; 4] None;
             mkDumped 0x0522 2 [0; 0] (Some (3, [8]))] in
  Forall dumped_ok us /\ exists c, accepted no_charmap us c.
Proof. apply driver_ok_accepted. vm_compute. reflexivity. Qed.

(** * C11: a signature is attached only to the file it signs *)

(** The generation of the signature record is not compared (see the refutation);
    the rest of the claim holds. *)
Theorem C11_signatures_partial :
  (* a signature found in the card directly followed the data record whose content is
     found with it, and names the same file *)
  (forall cm d c s x sg, bytes_ok d ->
     unmarshal_file cm d = Ok (mkFile FILE_DRIVER_CARD None (Some c) None) ->
     slot_of_card c s = Some (x, Some sg) ->
     exists pre data signature post, d = concat (map enc (pre ++ data :: signature :: post)) /\
       Z.odd (t_app data) = false /\ Z.odd (t_app signature) = true /\ t_fid signature = t_fid data /\
       unmarshal_content cm s (t_val data) = Ok x /\ t_val signature = sg) /\
  (* a signature record without such a data record in front is an error *)
  (forall cm pre t post f, well_framed (pre ++ t :: post) -> Z.odd (t_app t) = true ->
     (forall data pre', pre = pre' ++ [data] -> t_fid data = t_fid t -> Z.odd (t_app data) = false -> False) ->
     unmarshal_file cm (concat (map enc (pre ++ t :: post))) = Ok f -> file_type f = FILE_RAW_CARD).
Proof.
  split.
  - intros cm d c s x sg B E X. destruct (accepted_bytes cm d c B E) as (us & V & -> & A).
    apply accepted_iff in A as (os & _ & _ & G & ->); auto.
    destruct (card_some cm us os s (x, Some sg) G X) as (a & u & b & -> & F & _ & _ & Y & SG).
    cbn [fst snd] in *. unfold u_signature in SG. destruct (u_sig u) as [[ap s']|] eqn:US; [|discriminate].
    cbn [option_map snd] in SG. injection SG as <-.
    exists (flat_map u_tlvs a), (mkTlv (u_fid u) (u_app u) (u_val u)), (mkTlv (u_fid u) ap sg), (flat_map u_tlvs b).
    split.
    { unfold dump. f_equal. f_equal. rewrite flat_map_app. cbn [flat_map]. unfold u_tlvs at 2. rewrite US. reflexivity. }
    apply Forall_app in V as [_ V]. inversion V as [|? ? (_ & _ & O & _ & _ & W) _]; subst. rewrite US in W.
    cbn [t_app t_fid t_val]. destruct W as (_ & O' & _). auto 10.
  - intros cm pre t post f [F (h & tl & E & T)] O N U.
    change (concat (map enc (pre ++ t :: post))) with (encs (pre ++ t :: post)) in U.
    assert (B : bytes_ok (encs (pre ++ t :: post))).
    { unfold encs. clear - F. induction F as [|x l [X _] F IH]; cbn [map concat]; [constructor|].
      apply bytes_ok_app. split; auto. now apply enc_ok. }
    destruct (Z.eq_dec (file_type f) FILE_DRIVER_CARD) as [TD|TD].
    2:{ rewrite (card_file cm _ h tl E F T) in U. destruct (_ =? DRIVER_CARD).
        - apply bind_ok in U as (c & _ & U). apply Ok_inj in U. subst f. now destruct TD.
        - apply Ok_inj in U. now subst f. }
    exfalso. destruct (proj1 (driver_parse cm _ f B) (conj U TD)) as (us & os & V & D & _ & _ & _ & _).
    apply C03_card_framing_injective in D; [|exact F|now apply dump_tlvs].
    clear - D V O N. revert pre D N. induction V as [|u us W V IH]; intros pre D N.
    + destruct pre; discriminate.
    + cbn [flat_map] in D. destruct W as (_ & _ & OD & _ & _ & W).
      unfold u_tlvs at 1 in D. destruct pre as [|p pre].
      { injection D as -> _. cbn [t_app] in O. congruence. }
      cbn [List.app] in D. injection D as -> D.
      destruct (u_sig u) as [[ap s]|]; cbn [List.app] in D.
      * destruct pre as [|q pre].
        { injection D as -> _. apply (N (mkTlv (u_fid u) (u_app u) (u_val u)) []); auto. }
        cbn [List.app] in D. injection D as -> D. apply (IH pre D). intros data pre' -> Q Od.
        apply (N data (mkTlv (u_fid u) (u_app u) (u_val u) :: mkTlv (u_fid u) ap s :: pre')); auto.
      * apply (IH pre D). intros data pre' -> Q Od.
        apply (N data (mkTlv (u_fid u) (u_app u) (u_val u) :: pre')); auto.
Qed.
Print Assumptions C11_signatures_partial.

(** A second-generation signature is attached to first-generation data. *)
Theorem C11_signatures_refuted : exists us c x sg, Forall dumped_ok us /\ accepted no_charmap us c /\
  (forall u a s, In u us -> u_sig u = Some (a, s) -> u_app u = 0 /\ a = 3) /\
  slot_of_card c S_app_id = Some (x, Some sg) /\ sg = [7; 7; 7].
Proof.
  set (u := mkDumped 0x0501 0 (zeros 10) (Some (3, [7; 7; 7]))). set (us := [icc_unit; u]).
  destruct (driver_ok_accepted us) as (V & c & A); [vm_compute; reflexivity|].
  assert (Q := A). apply accepted_iff in Q as (os & _ & _ & G & E); auto.
  destruct (card_last no_charmap us os S_app_id u [icc_unit] [] G) as (x & _ & _ & X);
    [reflexivity|reflexivity|constructor|].
  exists us, c, x, [7; 7; 7]. split; [exact V|]. split; [exact A|]. split.
  - intros v a s [<-|[<-|[]]] W; [discriminate|]. injection W as <- _. auto.
  - split; [|reflexivity]. subst c. exact X.
Qed.
Print Assumptions C11_signatures_refuted.

Example C11_example :
  (* an orphan signature behind an unsigned file; and one for another file *)
  unmarshal_file no_charmap (dump [icc_unit] ++ enc (mkTlv 0x0501 1 [7])) = fail /\
  unmarshal_file no_charmap (dump [icc_unit; mkDumped 0x0501 0 (zeros 10) None] ++ enc (mkTlv 0x0522 1 [7])) = fail /\
  well_framed [mkTlv 0x0002 0 (zeros 25); mkTlv 0x0501 1 [7]].
Proof.
  split; [vm_compute; reflexivity|]. split; [vm_compute; reflexivity|]. split.
  - apply tlv_okb_ok. reflexivity.
  - eexists. eexists. split; reflexivity.
Qed.

(** * C12: no downloaded file is silently ignored *)

(** Missing from the full claim: the ten files listed, which are dropped. *)
Theorem C12_nothing_ignored_partial : forall cm us c a u b, Forall dumped_ok us -> accepted cm us c ->
  us = a ++ u :: b ->
  In (u_fid u) [0x0006; 0x050D; 0x0526; 0x0527; 0x0528; 0x0529; 0x0530; 0x0540; 0x2F00; 0x2F01] \/
  exists s v x, field_of (u_fid u) (u_gen2 u) = Some s /\
    (* the record or a later one for the same field *)
    In v (u :: b) /\ field_of (u_fid v) (u_gen2 v) = Some s /\
    unmarshal_content cm s (u_val v) = Ok x /\ slot_of_card c s = Some (x, u_signature v).
Proof.
  intros cm us c a u b V A ->. apply accepted_iff in A as (os & _ & I & G & ->); auto.
  destruct (u_field u) as [s|] eqn:F.
  - right. destruct (none_for_dec s (u :: b)) as [N|(a' & v & b' & E & W & N)].
    + inversion N; subst. congruence.
    + destruct (card_last cm _ os s v (a ++ a') b' G) as (x & X & _ & Y); auto.
      { rewrite <- app_assoc. now f_equal. }
      exists s, v, x. split; auto. split; [rewrite E; apply in_app_iff; right; now left|]. auto.
  - left. apply Forall2_app_l in G as (p & q & -> & _ & Q). inversion Q as [|? o ? q' U _]; subst.
    unfold gives in U. rewrite F in U. exact (proj1 U).
Qed.
Print Assumptions C12_nothing_ignored_partial.

Lemma field_none cm us os u : Forall2 (gives cm) us os -> In u us -> u_field u = None -> In (u_fid u) ignored_fids.
Proof.
  induction 1 as [|v o us os W G IH]; intros [] F; subst; auto. unfold gives in W. rewrite F in W. exact (proj1 W).
Qed.

(** Records of an ignored file leave no trace: any content is accepted and the card
    is the same as without them. *)
Theorem C12_nothing_ignored_refuted :
  (exists us u c, Forall dumped_ok us /\ In u us /\ u_val u = [1; 2; 3] /\ accepted no_charmap us c /\
     accepted no_charmap (filter (fun v => negb (u_fid v =? u_fid u)) us) c) /\
  (forall cm a b c u, Forall dumped_ok (a ++ b) -> dumped_ok u -> a <> [] -> accepted cm (a ++ b) c ->
     In (u_fid u) ignored_fids -> accepted cm (a ++ u :: b) c).
Proof.
  assert (U : forall cm a b c u, Forall dumped_ok (a ++ b) -> dumped_ok u -> a <> [] -> accepted cm (a ++ b) c ->
     In (u_fid u) ignored_fids -> accepted cm (a ++ u :: b) c).
  { intros cm a b c u V W N A I. apply accepted_iff in A as (os & (h & tl & E & H) & D & G & ->); auto.
    assert (V' : Forall dumped_ok (a ++ u :: b)).
    { apply Forall_app in V as [V1 V2]. apply Forall_app. auto. }
    apply accepted_iff; auto. apply Forall2_app_l in G as (p & q & -> & P & Q).
    exists (p ++ None :: q). split; [|split; [|split]].
    - destruct a as [|h' a]; [congruence|]. cbn [List.app] in E. injection E as -> _. exists h. eexists. split; [reflexivity|auto].
    - apply Forall_app in D as [D1 D2]. apply Forall_app. split; auto. constructor; auto.
      assert (T : forallb (fun f => existsb (Z.eqb f) driver_fids) ignored_fids = true) by reflexivity.
      rewrite forallb_forall in T. apply existsb_eqb. auto.
    - apply Forall2_app; auto. constructor; auto. unfold gives.
      assert (T : forallb (fun f => match field_of f true, field_of f false with None, None => true | _, _ => false end)
                    ignored_fids = true) by reflexivity.
      rewrite forallb_forall in T. specialize (T _ I). unfold u_field.
      destruct (field_of (u_fid u) true) eqn:F1; [discriminate|]. destruct (field_of (u_fid u) false) eqn:F2; [discriminate|].
      destruct (u_gen2 u); [rewrite F1|rewrite F2]; auto.
    - unfold card_of. rewrite !fold_left_app. reflexivity. }
  split; [|exact U].
  destruct (driver_ok_accepted [icc_unit; ic_unit]) as (V & c & A); [vm_compute; reflexivity|].
  set (u := mkDumped 0x0528 2 [1; 2; 3] None).
  assert (W : forallb dumped_okb [u] = true) by reflexivity. apply dumped_okb_ok in W. inversion W as [|? ? W1 _]; subst.
  exists [icc_unit; u; ic_unit], u, c. split.
  { inversion V; subst. constructor; auto. }
  split; [right; now left|]. split; [reflexivity|]. split; [|exact A].
  apply (U no_charmap [icc_unit] [ic_unit]); auto; [discriminate|]. apply existsb_eqb. reflexivity.
Qed.
Print Assumptions C12_nothing_ignored_refuted.

(** * C13: the order of files is irrelevant *)

(** Files with a field that does not depend on the generation. *)
Definition shared_fids : list Z := [0x0002; 0x0005; 0x0523; 0x0524; 0x0525].
Definition file_key (u : dumped) : Z * bool := (u_fid u, u_gen2 u && negb (existsb (Z.eqb (u_fid u)) shared_fids)).

Definition opt_slot_eqb (a b : option slot) : bool :=
  match a, b with Some s, Some t => if slot_eq_dec s t then true else false | _, _ => false end.

Lemma field_key u v s : u_field u = Some s -> u_field v = Some s -> file_key u = file_key v.
Proof.
  unfold u_field, file_key. generalize (u_fid u) (u_gen2 u) (u_fid v) (u_gen2 v). clear u v. intros f g f' g' E E'.
  assert (T : forallb (fun f => forallb (fun f' => forallb (fun g => forallb (fun g' =>
      negb (opt_slot_eqb (field_of f g) (field_of f' g')) ||
      ((f =? f') && Bool.eqb (g && negb (existsb (Z.eqb f) shared_fids)) (g' && negb (existsb (Z.eqb f') shared_fids))))
      [true; false]) [true; false]) (map (fun p => fst (fst p)) fields_table)) (map (fun p => fst (fst p)) fields_table) = true)
    by (vm_compute; reflexivity).
  assert (K : forall f g s, field_of f g = Some s -> In f (map (fun p => fst (fst p)) fields_table)).
  { clear. intros f g s. unfold field_of. destruct (find _ fields_table) as [p|] eqn:F; [|discriminate].
    apply find_some in F as [I E]. apply Z.eqb_eq in E. intros _. apply in_map_iff. exists p. auto. }
  rewrite forallb_forall in T. specialize (T f (K _ _ _ E)). rewrite forallb_forall in T. specialize (T f' (K _ _ _ E')).
  rewrite forallb_forall in T. assert (B : forall b : bool, In b [true; false]) by (intros []; cbn; auto).
  specialize (T g (B g)). rewrite forallb_forall in T. specialize (T g' (B g')).
  rewrite E, E' in T. unfold opt_slot_eqb in T. destruct (slot_eq_dec s s); [|congruence].
  cbn [negb orb] in T. apply andb_true_iff in T as [T1 T2]. apply Z.eqb_eq in T1. apply Bool.eqb_prop in T2.
  congruence.
Qed.

Lemma key_field u v s : u_field u = Some s -> file_key u = file_key v -> u_field v = Some s.
Proof.
  unfold u_field, file_key. generalize (u_fid u) (u_gen2 u) (u_fid v) (u_gen2 v). clear u v. intros f g f' g' E Q.
  pose proof (f_equal fst Q) as Q1. apply (f_equal snd) in Q. cbn [fst snd] in Q, Q1. subst f'.
  destruct (existsb (Z.eqb f) shared_fids) eqn:X.
  - apply existsb_eqb in X. rewrite <- E. repeat destruct X as [<-|X]; try (destruct g, g'; reflexivity). destruct X.
  - cbn [negb] in Q. rewrite !andb_true_r in Q. now subst.
Qed.

(** Missing from the full claim: dumps with ICC, IC, 0523, 0524 or 0525 in both
    generations, where the last one wins. *)
Theorem C13_order_partial : forall cm us us' c, Forall dumped_ok us -> NoDup (map file_key us) ->
  Permutation us us' -> starts_with_icc us' -> accepted cm us c ->
  exists c', accepted cm us' c' /\ same_card c c'.
Proof.
  intros cm us us' c V ND P ST A. apply accepted_iff in A as (os & _ & I & G & ->); auto.
  assert (V' : Forall dumped_ok us') by (eapply Permutation_Forall; eauto).
  assert (EX : exists os', Forall2 (gives cm) us' os' /\ Permutation os os').
  { clear - G P. revert os G. induction P as [|u us us' P IH|u v us|us us' us'' P IH P' IH']; intros os G.
    - inversion G; subst. exists []. split; constructor.
    - inversion G as [|? o ? os1 U G1]; subst. destruct (IH _ G1) as (os' & G' & Q). exists (o :: os'). split; constructor; auto.
    - inversion G as [|? o ? os1 U G1]; subst. inversion G1 as [|? o' ? os2 U' G2]; subst.
      exists (o' :: o :: os2). split; [repeat constructor; auto|constructor].
    - destruct (IH _ G) as (os1 & G1 & Q1). destruct (IH' _ G1) as (os2 & G2 & Q2). exists os2. split; auto. eapply perm_trans; eauto. }
  destruct EX as (os' & G' & Q). exists (card_of os'). split.
  - apply accepted_iff; auto. exists os'. split; auto. split; [eapply Permutation_Forall; eauto|]. auto.
  - split.
    + intros a. rewrite !card_of_has. f_equal. apply eq_true_iff_eq. rewrite !existsb_exists.
      split; intros (o & J & H); exists o; split; auto; [eapply Permutation_in; eauto|].
      eapply Permutation_in; [apply Permutation_sym|]; eauto.
    + intros s. destruct (none_for_dec s us) as [N|(a & u & b & E & U & N)].
      * rewrite (card_none cm us os s), (card_none cm us' os' s); auto.
        unfold none_for in *. eapply Permutation_Forall; eauto.
      * destruct (card_last cm us os s u a b G E U N) as (x & X & _ & ->).
        assert (J : In u us').
        { eapply Permutation_in; [exact P|]. subst us. apply in_app_iff. right. now left. }
        apply in_split in J as (a' & b' & E').
        assert (ND' : NoDup (map file_key us')) by (eapply Permutation_NoDup; [apply Permutation_map; exact P|auto]).
        destruct (card_last cm us' os' s u a' b' G' E' U) as (x' & X' & _ & ->); [|congruence].
        unfold none_for. rewrite Forall_forall. intros v J W. subst us'. rewrite map_app in ND'. cbn [map] in ND'.
        apply NoDup_remove_2 in ND'. apply ND'. rewrite (field_key u v s) by auto.
        apply in_app_iff. right. now apply in_map.
Qed.
Print Assumptions C13_order_partial.

Corollary C13_both_rejected : forall cm us us', Forall dumped_ok us -> NoDup (map file_key us) ->
  Permutation us us' -> starts_with_icc us -> starts_with_icc us' ->
  ((exists c, accepted cm us c) <-> (exists c, accepted cm us' c)).
Proof.
  intros cm us us' V ND P S1 S2. split; intros (c & A).
  - destruct (C13_order_partial cm us us' c V ND P S2 A) as (c' & A' & _). eauto.
  - destruct (C13_order_partial cm us' us c) as (c' & A' & _); eauto.
    + eapply Permutation_Forall; eauto.
    + eapply Permutation_NoDup; [apply Permutation_map; exact P|auto].
    + now apply Permutation_sym.
Qed.

(** Two orders of the same three records, with distinct file and generation, that
    parse to different messages. *)
Theorem C13_order_refuted : exists us us' c c' x x', Forall dumped_ok us /\ Permutation us us' /\
  NoDup (map (fun u => (u_fid u, u_gen2 u)) us) /\
  accepted no_charmap us c /\ accepted no_charmap us' c' /\
  slot_of_card c S_ic = Some x /\ slot_of_card c' S_ic = Some x' /\ x <> x'.
Proof.
  set (u := mkDumped 0x0005 2 [8; 7; 6; 5; 4; 3; 2; 1] None).
  set (us := [icc_unit; ic_unit; u]). set (us' := [icc_unit; u; ic_unit]).
  destruct (driver_ok_accepted us) as (V & c & A); [vm_compute; reflexivity|].
  destruct (driver_ok_accepted us') as (V' & c' & A'); [vm_compute; reflexivity|].
  assert (Q := A). apply accepted_iff in Q as (os & _ & _ & G & E); auto.
  assert (Q := A'). apply accepted_iff in Q as (os' & _ & _ & G' & E'); auto.
  destruct (card_last no_charmap us os S_ic u [icc_unit; ic_unit] [] G) as (x & X & _ & Y);
    [reflexivity|reflexivity|constructor|].
  destruct (card_last no_charmap us' os' S_ic ic_unit [icc_unit; u] [] G') as (x' & X' & _ & Y');
    [reflexivity|reflexivity|constructor|].
  exists us, us', c, c', (x, u_signature u), (x', u_signature ic_unit).
  split; [exact V|]. split; [apply perm_skip, perm_swap|]. split.
  { apply NoDup_cons; [cbn; intuition discriminate|]. apply NoDup_cons; [cbn; intuition discriminate|].
    apply NoDup_cons; [cbn; tauto|apply NoDup_nil]. }
  split; [exact A|]. split; [exact A'|]. subst c c'. split; [exact Y|]. split; [exact Y'|].
  vm_compute in X, X'. apply Ok_inj in X, X'. subst x x'. discriminate.
Qed.
Print Assumptions C13_order_refuted.

Example C13_example :
  let us := [icc_unit; ic_unit; mkDumped 0x0501 0 (zeros 10) (Some (1, [7])); mkDumped 0x0522 2 [0; 0] (Some (3, [8]))] in
  Forall dumped_ok us /\ (exists c, accepted no_charmap us c) /\ NoDup (map file_key us).
Proof.
  intros us. destruct (driver_ok_accepted us) as [V A]; [vm_compute; reflexivity|]. split; auto. split; auto.
  apply (NoDup_count_occ' (fun a b : Z * bool => ltac:(repeat decide equality) : {a = b} + {a <> b})).
  intros k H. vm_compute in H. repeat destruct H as [<-|H]; try reflexivity. destruct H.
Qed.

(** * C14: the last occurrence wins *)

Theorem C14_last_occurrence_wins :
  (* the content and the signature are those of the last occurrence *)
  (forall cm us c a u b s, Forall dumped_ok us -> accepted cm us c -> us = a ++ u :: b ->
     (forall v, In v b -> file_key v <> file_key u) -> field_of (u_fid u) (u_gen2 u) = Some s ->
     exists x, unmarshal_content cm s (u_val u) = Ok x /\ slot_of_card c s = Some (x, u_signature u)) /\
  (* earlier occurrences make no difference *)
  (forall cm a u b c, Forall dumped_ok (a ++ u :: b) -> a <> [] -> (exists v, In v b /\ file_key v = file_key u) ->
     accepted cm (a ++ u :: b) c -> exists c', accepted cm (a ++ b) c' /\ same_card c c') /\
  (* and can be there whenever they are acceptable by themselves *)
  (forall cm a u b c i c0, Forall dumped_ok (a ++ u :: b) -> a <> [] -> dumped_ok i ->
     accepted cm [i; u] c0 -> (exists v, In v b /\ file_key v = file_key u) ->
     accepted cm (a ++ b) c -> exists c', accepted cm (a ++ u :: b) c' /\ same_card c c').
Proof.
  assert (Same : forall cm a u b p o q, Forall2 (gives cm) a p -> gives cm u o -> Forall2 (gives cm) b q ->
            (exists v, In v b /\ file_key v = file_key u) ->
            same_card (card_of (p ++ o :: q)) (card_of (p ++ q))).
  { intros cm a u b p o q P U Q (v & J & K).
    assert (L : forall s, u_field u = Some s -> exists b1 w b2, b = b1 ++ w :: b2 /\ u_field w = Some s /\ none_for s b2).
    { intros s F. destruct (none_for_dec s b) as [N|N]; auto. exfalso. unfold none_for in N. rewrite Forall_forall in N.
      apply (N v J). apply (key_field u v s); auto. }
    split.
    - intros x. rewrite !card_of_has, !existsb_app. cbn [existsb]. f_equal. f_equal.
      unfold gives in U. destruct (u_field u) as [s|] eqn:F; [|destruct U as [_ ->]; reflexivity].
      destruct U as (y & _ & _ & ->). cbn [in_app fl_slot]. destruct (app_eqb x (slot_app s)) eqn:X; auto.
      cbn [orb]. symmetry. destruct (L s eq_refl) as (b1 & w & b2 & -> & W & _).
      apply Forall2_app_l in Q as (q1 & q2 & -> & _ & Q2). inversion Q2 as [|? o' ? q3 W' _]; subst.
      unfold gives in W'. rewrite W in W'. destruct W' as (z & _ & _ & ->). rewrite existsb_app. cbn [existsb in_app fl_slot].
      rewrite X. cbn [orb]. apply orb_true_r.
    - intros s. rewrite !card_of_slot, !latest_app. unfold gives in U. destruct (u_field u) as [t|] eqn:F.
      2:{ destruct U as [_ ->]. reflexivity. }
      destruct U as (y & _ & _ & ->). cbn [latest]. destruct (slot_eq_dec t s) as [->|Ne].
      + rewrite entry_at_self. destruct (L s eq_refl) as (b1 & w & b2 & -> & W & N).
        apply Forall2_app_l in Q as (q1 & q2 & -> & _ & Q2). inversion Q2 as [|? o' ? q3 W' Q3]; subst.
        unfold gives in W'. rewrite W in W'. destruct W' as (z & _ & _ & ->). rewrite !latest_app. cbn [latest].
        rewrite entry_at_self. reflexivity.
      + rewrite entry_at_other; auto. }
  split; [|split].
  - intros cm us c a u b s V A -> N F. apply accepted_iff in A as (os & _ & _ & G & ->); auto.
    destruct (card_last cm _ os s u a b G eq_refl F) as (x & X & _ & Y); [|eauto].
    unfold none_for. rewrite Forall_forall. intros v J W. apply (N v J). apply (field_key v u s); auto.
  - intros cm a u b c V Na K A. apply accepted_iff in A as (os & (h & tl & E & H) & I & G & ->); auto.
    apply Forall2_app_l in G as (p & q & -> & P & Q). inversion Q as [|? o ? q' U Q']; subst.
    apply Forall_app in V as [V1 V2]. inversion V2 as [|? ? Vu V3]; subst.
    apply Forall_app in I as [I1 I2]. inversion I2 as [|? ? Iu I3]; subst.
    exists (card_of (p ++ q')). split; [|eapply Same; eauto].
    apply accepted_iff; [apply Forall_app; auto|]. exists (p ++ q'). split; [|split; [|split]]; auto.
    + destruct a as [|h' a]; [congruence|]. cbn [List.app] in E. injection E as -> _. exists h. eexists. split; [reflexivity|auto].
    + apply Forall_app; auto.
    + apply Forall2_app; auto.
  - intros cm a u b c i c0 V Na Wi A0 K A. apply Forall_app in V as [V1 V2]. inversion V2 as [|? ? Vu V3]; subst.
    apply accepted_iff in A0 as (os0 & _ & I0 & G0 & _); [|apply Forall_cons; [exact Wi|apply Forall_cons; [exact Vu|apply Forall_nil]]].
    apply accepted_iff in A as (os & (h & tl & E & H) & I & G & ->); [|apply Forall_app; auto].
    inversion I0 as [|? ? _ I0']; subst. inversion I0' as [|? ? Iu _]; subst.
    inversion G0 as [|? ? ? ? _ G0']; subst. inversion G0' as [|? o ? ? U _]; subst.
    apply Forall2_app_l in G as (p & q & -> & P & Q). apply Forall_app in I as [I1 I2].
    exists (card_of (p ++ o :: q)). split.
    + apply accepted_iff; [apply Forall_app; auto|]. exists (p ++ o :: q). split; [|split; [|split]]; auto.
      * destruct a as [|h' a]; [congruence|]. cbn [List.app] in E. injection E as -> _. exists h. eexists. split; [reflexivity|auto].
      * apply Forall_app; auto.
      * apply Forall2_app; auto.
    + destruct (Same cm a u b p o q) as [S1 S2]; auto. split; intros; symmetry; auto.
Qed.
Print Assumptions C14_last_occurrence_wins.

Example C14_example :
  let us := [icc_unit; mkDumped 0x0522 2 [0; 0] (Some (3, [8])); ic_unit; mkDumped 0x0522 2 [0; 0; 1; 2; 3; 4; 5] None] in
  Forall dumped_ok us /\ (exists c, accepted no_charmap us c) /\
  file_key (nth 1 us icc_unit) = file_key (nth 3 us icc_unit).
Proof.
  intros us. destruct (driver_ok_accepted us) as [V A]; [vm_compute; reflexivity|]. auto.
Qed.

(** * C15: second-generation certificates *)

(** Missing from the full claim: the Card_MA certificate itself, which is never
    accepted.  The other second-generation certificates are. *)
Theorem C15_certificates_partial : forall cm us c u x, Forall dumped_ok us -> accepted cm us c -> dumped_ok u ->
  In (u_fid u) [0xC101; 0xC108; 0xC109] -> u_gen2 u = true -> u_sig u = None -> unmarshal_ecc (u_val u) = Ok x ->
  exists c', accepted cm (us ++ [u]) c' /\
    (u_fid u = 0xC101 -> slot_of_card c' S2_sign_cert = Some (x, None)) /\
    (u_fid u = 0xC108 -> slot_of_card c' S2_ca_cert = Some (x, None)) /\
    (u_fid u = 0xC109 -> slot_of_card c' S2_link_cert = Some (x, None)).
Proof.
  intros cm us c u x V A W J Gn SG X. apply accepted_iff in A as (os & (h & tl & E & H) & I & G & ->); auto.
  set (s := if u_fid u =? 0xC101 then S2_sign_cert else if u_fid u =? 0xC108 then S2_ca_cert else S2_link_cert).
  assert (F : u_field u = Some s /\ exists y, unmarshal_content cm s (u_val u) = Ok y).
  { unfold u_field, s. rewrite Gn. clear - J X. repeat destruct J as [<-|J]; try (split; [reflexivity|exists x; exact X]). destruct J. }
  destruct F as (F & y & Y).
  assert (GU : gives cm u (Some (Filed s (y, None)))).
  { unfold gives. rewrite F. exists y. split; auto. split; auto. unfold u_signature. now rewrite SG. }
  exists (card_of (os ++ [Some (Filed s (y, None))])).
  assert (G' : Forall2 (gives cm) (us ++ [u]) (os ++ [Some (Filed s (y, None))])) by (apply Forall2_app; auto).
  split.
  - apply accepted_iff; [apply Forall_app; auto|]. eexists. split; [|split; [|split; [exact G'|reflexivity]]].
    + subst us. exists h. eexists. split; [reflexivity|auto].
    + apply Forall_app. split; auto. constructor; auto.
      assert (T : forallb (fun f => existsb (Z.eqb f) driver_fids) [0xC101; 0xC108; 0xC109] = true) by reflexivity.
      rewrite forallb_forall in T. apply existsb_eqb. auto.
  - assert (L : forall t z, u_field u = Some t -> unmarshal_content cm t (u_val u) = Ok z ->
              slot_of_card (card_of (os ++ [Some (Filed s (y, None))])) t = Some (z, None)).
    { intros t z Ft Z. destruct (card_last cm _ _ t u us [] G' eq_refl Ft) as (z' & Z' & _ & ->); [constructor|].
      unfold u_signature. rewrite SG. cbn [option_map]. congruence. }
    split; [|split]; intros Q; apply L; auto; unfold u_field; rewrite Q, Gn; reflexivity.
Qed.
Print Assumptions C15_certificates_partial.

Lemma sample_certificate_ok : exists x, unmarshal_ecc sample_certificate = Ok x.
Proof. eexists. vm_compute. reflexivity. Qed.

(** No dump with a data record C100 of the second generation is accepted as a driver
    card, whatever the certificate. *)
Theorem C15_certificates_refuted :
  (forall cm us u c, Forall dumped_ok us -> In u us -> u_fid u = 0xC100 -> u_gen2 u = true -> ~ accepted cm us c) /\
  exists us u c x, Forall dumped_ok (us ++ [u]) /\ accepted no_charmap us c /\
    u_fid u = 0xC100 /\ u_app u = 2 /\ u_sig u = None /\ unmarshal_ecc (u_val u) = Ok x /\
    unmarshal_file no_charmap (dump (us ++ [u])) = fail.
Proof.
  split.
  - intros cm us u c V I F Gn A. apply accepted_iff in A as (os & _ & _ & G & _); auto.
    assert (N : u_field u = None) by (unfold u_field; rewrite F, Gn; reflexivity).
    pose proof (field_none cm us os u G I N) as J. rewrite F in J. apply existsb_eqb in J. discriminate.
  - set (u := mkDumped 0xC100 2 sample_certificate None).
    destruct (driver_ok_accepted [icc_unit]) as (V & c & A); [vm_compute; reflexivity|].
    destruct sample_certificate_ok as (x & Q).
    exists [icc_unit], u, c, x. split; [apply dumped_okb_ok; vm_compute; reflexivity|].
    split; [exact A|]. split; [reflexivity|]. split; [reflexivity|]. split; [reflexivity|]. split; [exact Q|].
    vm_compute. reflexivity.
Qed.
Print Assumptions C15_certificates_refuted.

Example C15_example :
  let us := [icc_unit; mkDumped 0xC101 2 sample_certificate None; mkDumped 0xC108 2 sample_certificate None] in
  Forall dumped_ok us /\ exists c, accepted no_charmap us c.
Proof. apply driver_ok_accepted. vm_compute. reflexivity. Qed.
