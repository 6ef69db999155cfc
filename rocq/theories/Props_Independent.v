(** Property C125: every file of a card is read by itself, and the version that the card
    declares is handed on but makes no difference. *)

From Verif Require Import Base Enums Chunks DDScalar RawTypes RawCard P_RawCard Infer Props_RawCard.
From Verif Require Import CardBasic P_Basic P_Records Cert P_Cert DriverCard P_Driver Vu Verify Api P_Dump Props_Dump Props_Driver.
From Verif Require Import CardOptions.

(** ** Other contents in one file *)

(** The same file of the same application with other bytes or another signature *)
Definition same_file (u u' : dumped) : Prop := u_fid u = u_fid u' /\ u_gen2 u = u_gen2 u'.

(** A record that can be read when nothing is there but the card chip. *)
Definition readable_alone (cm : Z -> Z -> Z) (u : dumped) : Prop :=
  exists c, accepted cm [icc_unit; u] c.

Lemma same_field u u' : same_file u u' -> u_field u = u_field u'.
Proof. intros [F G]. unfold u_field. now rewrite F, G. Qed.

Lemma alone_gives cm u : dumped_ok u -> readable_alone cm u -> exists o, gives cm u o.
Proof.
  intros V (c & A). apply accepted_iff in A as (os & _ & _ & G & _).
  - inversion G as [|? ? ? ? _ G2]; subst. inversion G2 as [|? o ? ? U _]; subst. eauto.
  - constructor; [|constructor; auto]. exact (proj1 (Forall_forall _ _) (dumped_okb_ok [icc_unit] eq_refl) _ (or_introl eq_refl)).
Qed.

Lemma latest_other cm t us us' os os' : Forall2 (fun u u' => same_file u u' /\ (u = u' \/ u_field u = Some t)) us us' ->
  Forall2 (gives cm) us os -> Forall2 (gives cm) us' os' ->
  forall s d, s <> t -> latest s os d = latest s os' d.
Proof.
  intros R. revert os os'. induction R as [|u u' us us' [Sf E] R IH]; intros os os' G G' s d N.
  - inversion G; inversion G'; subst. reflexivity.
  - inversion G as [|? o ? os1 U G1]; subst. inversion G' as [|? o' ? os1' U' G1']; subst.
    destruct E as [<-|E].
    + assert (o = o') as <-.
      { unfold gives in U, U'. destruct (u_field u); [destruct U as (x & X & _ & ->), U' as (x' & X' & _ & ->); congruence|].
        destruct U as [_ ->], U' as [_ ->]. reflexivity. }
      cbn [latest]. destruct o; now apply IH.
    + pose proof (same_field _ _ Sf) as E'. rewrite E in E'. unfold gives in U, U'. rewrite E in U. rewrite <- E' in U'.
      destruct U as (x & _ & _ & ->), U' as (x' & _ & _ & ->). cbn [latest]. rewrite !entry_at_other by (cbn [fl_slot]; congruence).
      now apply IH.
Qed.

(** Take an accepted card and put other bytes, or other signatures, into the records of the
    field [t], such that they can be read alone.  Then the card is accepted again, and all
    other fields and the presence of the applications are as before. *)
Theorem C125_other_contents :
  forall cm us us' c t, Forall dumped_ok us -> Forall dumped_ok us' ->
  Forall2 (fun u u' => same_file u u' /\ (u = u' \/ field_of (u_fid u) (u_gen2 u) = Some t)) us us' ->
  accepted cm us c ->
  (forall u, In u us' -> field_of (u_fid u) (u_gen2 u) = Some t -> readable_alone cm u) ->
  exists c', accepted cm us' c' /\ (forall a, dc_has c' a = dc_has c a) /\
    forall s, s <> t -> slot_of_card c' s = slot_of_card c s.
Proof.
  intros cm us us' c t V V' R A L. apply accepted_iff in A as (os & (h & tl & E & Hd) & I & G & ->); auto.
  assert (X : exists os', Forall2 (gives cm) us' os').
  { clear - R G V' L. revert os G. induction R as [|u u' us us' [Sf E] R IH]; intros os G; [exists []; constructor|].
    inversion G as [|? o ? os1 U G1]; subst. apply Forall_cons_iff in V' as [V1 V2].
    destruct (IH V2 (fun w Iw => L w (or_intror Iw)) _ G1) as (os' & G').
    assert (Y : exists o', gives cm u' o').
    { destruct E as [<-|E]; [eauto|]. apply alone_gives; [exact V1|]. apply L; [now left|].
      change (u_field u' = Some t). rewrite <- (same_field _ _ Sf). exact E. }
    destruct Y as (o' & Y). exists (o' :: os'). now constructor. }
  destruct X as (os' & G'). exists (card_of os'). split; [|split].
  - apply accepted_iff; [exact V'|]. exists os'. split; [|split; [|split; [exact G'|reflexivity]]].
    + subst us. inversion R as [|? u' ? us2 [[Sf Sg] _] R2]; subst. exists u', us2. split; [reflexivity|]. now rewrite <- Sf.
    + clear - R I. induction R as [|u u' us us' [[Sf _] _] R IH]; constructor; inversion I; subst; [now rewrite <- Sf|auto].
  - intros a. apply Bool.eq_true_iff_eq. rewrite (card_has cm us' os' a G'), (card_has cm us os a G).
    assert (K : forall vs vs', Forall2 same_file vs vs' -> (exists u s, In u vs /\ u_field u = Some s /\ slot_app s = a) ->
      exists u s, In u vs' /\ u_field u = Some s /\ slot_app s = a).
    { intros vs vs' Q (u & s & Iu & Fu & Au). revert Iu. induction Q as [|v v' vs vs' Sf Q IHq]; intros Iu; [destruct Iu|].
      destruct Iu as [->|Iu]; [exists v', s; rewrite <- (same_field _ _ Sf); split; [now left|auto]|].
      destruct (IHq Iu) as (w & r & Iw & W). exists w, r. split; [now right|exact W]. }
    assert (R1 : Forall2 same_file us us') by (clear - R; induction R as [|? ? ? ? [Sf _] _ IH]; constructor; auto).
    assert (R2 : Forall2 same_file us' us).
    { clear - R1. induction R1 as [|? ? ? ? [Sf Sg] _ IH]; constructor; auto. split; congruence. }
    split; intros [H|H]; auto; right; [exact (K _ _ R2 H)|exact (K _ _ R1 H)].
  - intros s N. rewrite !card_of_slot. symmetry. exact (latest_other cm t us us' os os' R G G' s None N).
Qed.

(** ** The version *)

Definition map_ok {A B} (f : A -> B) (r : res A) : res B := let* a := r in Ok (f a).

(** Handing options to the readers gives the same card, or the same error. *)
Theorem C125_version_ignored :
  forall cm rs, map_ok pr_card (unmarshal_driver_card_with cm rs) = unmarshal_driver_card cm rs.
Proof.
  intros cm rs. unfold unmarshal_driver_card_with, unmarshal_driver_card.
  change empty_card with (pr_card (mkProgress empty_card VERSION_1 [])) at 2.
  generalize (mkProgress empty_card VERSION_1 []) as p. intros p.
  assert (St : forall p r sg, map_ok pr_card (step_with cm p r sg) = step cm (pr_card p) r sg).
  { intros q r sg. unfold step_with, step, unmarshal_content_with. cbv zeta.
    destruct (route _ _) as [[s|]|e|]; cbn [bind map_ok]; try reflexivity.
    destruct (unmarshal_content cm s _) as [v|e|]; cbn [bind map_ok]; try reflexivity.
    destruct (guard _) as [u|e|]; cbn [bind map_ok]; reflexivity. }
  remember (length rs) as n eqn:Ln. assert (L : (length rs <= n)%nat) by lia. clear Ln. revert rs p L.
  induction n as [|n IH]; intros rs p L.
  { destruct rs; [reflexivity|cbn in L; lia]. }
  destruct rs as [|r rs]; [reflexivity|]. cbn [unmarshal_records_with unmarshal_records length] in *.
  destruct (guard (rr_content r =? CONTENT_DATA)) as [u|e|]; cbn [bind map_ok]; try reflexivity.
  assert (K : forall sg rest, (length rest <= n)%nat ->
    map_ok pr_card (let* p' := step_with cm p r sg in unmarshal_records_with cm p' rest) =
    (let* c' := step cm (pr_card p) r sg in unmarshal_records cm c' rest)).
  { intros sg rest Lr. rewrite <- St. destruct (step_with cm p r sg) as [q|e|]; cbn [bind map_ok]; try reflexivity. now apply IH. }
  destruct rs as [|m rs]; [exact (St p r None)|].
  destruct ((rr_file m =? rr_file r) && (rr_content m =? CONTENT_SIGNATURE)).
  - apply (K (Some (rr_value m)) rs). cbn [length] in L. lia.
  - apply (K None (m :: rs)). lia.
Qed.

(** The version declared by the application identification that was read last: 00 xx is
    version 1, 01 00 version 1 and 01 01 version 2 of the second generation.  Without one,
    version 1. *)
Definition declared (before : list dumped) : Z :=
  match find (fun u => u_fid u =? 0x0501) (rev before) with
  | None => 1
  | Some u =>
      match u_val u with
      | _ :: 0 :: _ => 1
      | _ :: 1 :: 0 :: _ => 1
      | _ :: 1 :: 1 :: _ => 2
      | _ => 0
      end
  end.

(** The options due to the records [us] that come after [before] *)
Fixpoint due (before us : list dumped) : list (slot * options) :=
  match us with
  | [] => []
  | u :: t =>
      match field_of (u_fid u) (u_gen2 u) with
      | Some s => [(s, mkOptions (if u_gen2 u then 2 else 1) (declared before))]
      | None => []
      end ++ due (before ++ [u]) t
  end.

Fixpoint steps_with (cm : Z -> Z -> Z) (p : progress) (us : list unit_in) : res progress :=
  match us with
  | [] => Ok p
  | u :: t => let* q := step_with cm p (fst u) (snd u) in steps_with cm q t
  end.

Lemma grouped_with cm rs us : grouped rs us -> forall p, unmarshal_records_with cm p rs = steps_with cm p us.
Proof.
  induction 1 as [|r rs us D N G IH|r n rs us D Fe C G IH]; intros p; [reflexivity|..]; cbn [unmarshal_records_with steps_with fst snd].
  - rewrite (proj2 (Z.eqb_eq _ _) D). cbn [guard bind]. destruct rs as [|n rs].
    + inversion G; subst. cbn [steps_with]. destruct (step_with cm p r None); reflexivity.
    + assert (B : (rr_file n =? rr_file r) && (rr_content n =? CONTENT_SIGNATURE) = false).
      { apply andb_false_iff. destruct N as [N|N]; [left|right]; now apply Z.eqb_neq. }
      rewrite B. destruct (step_with cm p r None) as [q|e|]; cbn [bind]; auto.
  - rewrite (proj2 (Z.eqb_eq _ _) D), (proj2 (Z.eqb_eq _ _) Fe), (proj2 (Z.eqb_eq _ _) C). cbn [guard bind andb].
    destruct (step_with cm p r (Some (rr_value n))) as [q|e|]; cbn [bind]; auto.
Qed.

Lemma declared_snoc before u : declared (before ++ [u]) = if u_fid u =? 0x0501 then declared [u] else declared before.
Proof. unfold declared. rewrite rev_app_distr. cbn [rev List.app find]. destruct (u_fid u =? 0x0501); reflexivity. Qed.

Lemma sub12 d : (3 <= length d)%nat -> exists x y z t, d = x :: y :: z :: t /\ sub d 1 2 = [y; z].
Proof. destruct d as [|x [|y [|z t]]]; cbn [length]; intros L; try lia. exists x, y, z, t. split; reflexivity. Qed.

Lemma bcd_small b n : byte_ok b -> 0 <= n < 2 -> b / 16 * 10 + b mod 16 = n <-> b = n.
Proof.
  unfold byte_ok. intros B N. pose proof (Z.div_mod b 16 ltac:(lia)). pose proof (Z.mod_pos_bound b 16 ltac:(lia)).
  split; [intros; assert (b / 16 = 0) by lia; lia|]. intros ->. rewrite Z.div_small, Z.mod_small by lia. lia.
Qed.

Lemma version_bytes x y z t v : bytes_ok (x :: y :: z :: t) -> unmarshal_csv [y; z] = Ok v ->
  forall u, u_fid u = 0x0501 -> u_val u = x :: y :: z :: t -> op_version (set_from_csv v) = declared [u].
Proof.
  intros B E u Fu Vu. apply Forall_cons_iff in B as [_ B]. apply Forall_cons_iff in B as [By B]. apply Forall_cons_iff in B as [Bz _].
  cbn in E. apply Ok_inj in E. subst v. unfold declared. cbn [rev List.app find]. rewrite Fu. cbn [Z.eqb Pos.eqb]. rewrite Vu.
  unfold set_from_csv. cbn [csv_major csv_minor].
  pose proof (bcd_small y 0 By ltac:(lia)) as Y0. pose proof (bcd_small y 1 By ltac:(lia)) as Y1.
  pose proof (bcd_small z 0 Bz ltac:(lia)) as Z0. pose proof (bcd_small z 1 Bz ltac:(lia)) as Z1.
  destruct (Z.eqb_spec (y / 16 * 10 + y mod 16) 0) as [Q|Q]; [apply Y0 in Q; subst y; reflexivity|].
  destruct (Z.eqb_spec (y / 16 * 10 + y mod 16) 1) as [P|P].
  - apply Y1 in P. subst y. cbn [op_version].
    destruct (Z.eqb_spec (z / 16 * 10 + z mod 16) 0) as [W|W]; [apply Z0 in W; subst z; reflexivity|].
    destruct (Z.eqb_spec (z / 16 * 10 + z mod 16) 1) as [W'|W']; [apply Z1 in W'; subst z; reflexivity|].
    destruct z as [|[z|z|]|z]; try reflexivity; [now contradiction W|now contradiction W'].
  - destruct y as [|[y|y|]|y]; try reflexivity; [now contradiction Q|now contradiction P].
Qed.

Lemma other_version f g s : field_of f g = Some s -> f <> 0x0501 -> forall y, structure_version s y = None.
Proof.
  intros E N y. assert (K : s <> S_app_id /\ s <> S2_app_id); [|destruct K; destruct s; try reflexivity; contradiction].
  unfold field_of in E. destruct (find _ fields_table) as [[[h s1] s2]|] eqn:Fd; [|discriminate E].
  apply find_some in Fd as [I Q]. cbn [fst] in Q. apply Z.eqb_eq in Q. subst h.
  assert (T : forallb (fun p : Z * option slot * option slot => match p with (h, a, b) =>
     (h =? 0x0501) || negb (existsb (fun o => match o with Some S_app_id | Some S2_app_id => true | _ => false end) [a; b]) end) fields_table = true)
    by reflexivity.
  rewrite forallb_forall in T. specialize (T _ I). cbn beta iota in T. apply orb_true_iff in T as [T|T]; [apply Z.eqb_eq in T; contradiction|].
  apply negb_true_iff in T. cbn [existsb] in T. apply orb_false_iff in T as [T1 T2]. apply orb_false_iff in T2 as [T2 _].
  destruct g; subst; split; intros ->; first [discriminate T1|discriminate T2].
Qed.

(** The options handed on while reading an accepted dump. *)
Theorem C125_version_handed :
  forall cm us c, Forall dumped_ok us -> accepted cm us c ->
  exists rs p, unmarshal_raw_card_file (dump us) = Ok rs /\ unmarshal_driver_card_with cm rs = Ok p /\
    pr_card p = c /\ pr_handed p = due [] us.
Proof.
  intros cm us c V A. apply accepted_iff in A as (os & _ & I & G & ->); [|exact V].
  set (rs := map expected (flat_map u_tlvs us)). exists rs.
  assert (C : unmarshal_driver_card cm rs = Ok (card_of os)).
  { apply unmarshal_driver_card_ok. exists (map u_in us), os. split; [now apply grouped_dump|]. split; auto. now apply gives_all. }
  pose proof (C125_version_ignored cm rs) as Q. rewrite C in Q.
  destruct (unmarshal_driver_card_with cm rs) as [p|e|] eqn:P; cbn [map_ok bind] in Q; try discriminate Q.
  apply Ok_inj in Q. exists p. split.
  { unfold dump. apply (proj1 C03_card_framing). apply dump_tlvs. exact V. }
  split; [reflexivity|]. split; [exact Q|].
  unfold unmarshal_driver_card_with in P. rewrite (grouped_with cm rs _ (grouped_dump us V)) in P.
  assert (K : forall l before q os', Forall dumped_ok l -> Forall (fun u => In (u_fid u) driver_fids) l -> Forall2 (gives cm) l os' ->
    pr_version q = declared before -> forall p', steps_with cm q (map u_in l) = Ok p' -> pr_handed p' = pr_handed q ++ due before l).
  2: { change (pr_handed p = pr_handed (mkProgress empty_card VERSION_1 []) ++ due [] us). exact (K us [] (mkProgress empty_card VERSION_1 []) os V I G eq_refl p P). }
  clear. induction l as [|u l IH]; intros before q os' V I G E p' P.
  { cbn in P. apply Ok_inj in P. subst p'. cbn [due]. now rewrite app_nil_r. }
  apply Forall_cons_iff in V as [V0 V]. apply Forall_cons_iff in I as [I0 I]. inversion G as [|? o ? os1 U G1]; subst.
  cbn [map steps_with] in P. apply bind_ok in P as (q' & P0 & P). cbn [due].
  unfold step_with, u_in in P0. cbn [fst snd expected rr_file rr_generation rr_value t_fid t_app t_val] in P0.
  fold (u_gen2 u) in P0. change (if u_gen2 u then 2 else 1) with (gen_of (u_gen2 u)) in P0. rewrite route_fid in P0 by exact I0.
  unfold gives, u_field in U. pose proof (declared_snoc before u) as Ds.
  destruct (field_of (u_fid u) (u_gen2 u)) as [s|] eqn:Fs; cbn [bind] in P0.
  - destruct U as (x & X & _ & _). unfold unmarshal_content_with in P0. rewrite X in P0. cbn [bind] in P0.
    apply bind_ok in P0 as (w & _ & P0). apply Ok_inj in P0.
    assert (Ev : pr_version q' = declared (before ++ [u])).
    { subst q'. cbn [pr_version]. rewrite Ds.
      destruct (Z.eqb_spec (u_fid u) 0x0501) as [F5|N5].
      - rewrite F5 in Fs. destruct V0 as (_ & _ & _ & B & _).
        destruct (u_gen2 u); cbn in Fs; injection Fs as <-; cbn [structure_version unmarshal_content] in X |- *.
        + unfold unmarshal_app_id_g2 in X. apply bind_ok in X as ([] & L & X). apply bind_ok in X as (ty & _ & X).
          apply bind_ok in X as (v & Ev & X). apply Ok_inj in X. subst x. cbn [ai2_version].
          destruct (Nat.eqb_spec (length (u_val u)) 17) as [Le|]; [|discriminate L].
          destruct (sub12 (u_val u)) as (a & y & z & t & Eu & Es); [lia|]. rewrite Es in Ev. rewrite Eu in B.
          exact (version_bytes a y z t v B Ev u F5 Eu).
        + unfold unmarshal_app_id in X. apply bind_ok in X as ([] & L & X). apply bind_ok in X as (ty & _ & X).
          apply bind_ok in X as (v & Ev & X). apply Ok_inj in X. subst x. cbn [ai_version].
          destruct (Nat.eqb_spec (length (u_val u)) 10) as [Le|]; [|discriminate L].
          destruct (sub12 (u_val u)) as (a & y & z & t & Eu & Es); [lia|]. rewrite Es in Ev. rewrite Eu in B.
          exact (version_bytes a y z t v B Ev u F5 Eu).
      - assert (N : forall y, structure_version s y = None); [|rewrite N; exact E].
        intros y. exact (other_version _ _ s Fs N5 y). }
    rewrite (IH (before ++ [u]) q' os1 V I G1 Ev p' P). subst q'. cbn [pr_handed]. rewrite <- app_assoc, E. reflexivity.
  - destruct U as [Ig _]. apply existsb_eqb in Ig. rewrite Ig in P0. cbn [bind] in P0. apply Ok_inj in P0. subst q'.
    cbn [List.app]. apply (IH (before ++ [u]) q os1 V I G1); [|exact P]. rewrite Ds, E.
    destruct (Z.eqb_spec (u_fid u) 0x0501) as [F5|]; [|reflexivity]. rewrite F5 in Fs. destruct (u_gen2 u); discriminate Fs.
Qed.

(** A card with both applications, the second of version 2; and the same with another
    version and other numbers in the second application identification. *)
Definition two_versions (minor places : Z) : list dumped :=
  [icc_unit;
   mkDumped 0x0501 0 [1; 0; 0; 6; 12; 0; 16; 0; 84; 84] None;
   mkDumped 0x0506 0 (repeat 0 11) None;
   mkDumped 0x0501 2 [1; 1; minor; 6; 12; 0; 16; 0; 84; 0; places; 0; 10; 0; 10; 0; 10] (Some (3, [8]));
   mkDumped 0x0506 2 (repeat 0 23) None].

Example C125_applies :
  Forall dumped_ok (two_versions 1 84) /\ (exists c, accepted no_charmap (two_versions 1 84) c) /\
  Forall2 (fun u u' => same_file u u' /\ (u = u' \/ field_of (u_fid u) (u_gen2 u) = Some S2_app_id)) (two_versions 1 84) (two_versions 7 3) /\
  (forall u, In u (two_versions 7 3) -> field_of (u_fid u) (u_gen2 u) = Some S2_app_id -> readable_alone no_charmap u) /\
  map snd (due [] (two_versions 1 84)) = [mkOptions 1 1; mkOptions 1 1; mkOptions 1 1; mkOptions 2 1; mkOptions 2 2] /\
  map snd (due [] (two_versions 7 3)) = [mkOptions 1 1; mkOptions 1 1; mkOptions 1 1; mkOptions 2 1; mkOptions 2 0].
Proof.
  destruct (driver_ok_accepted (two_versions 1 84)) as (V & A); [vm_compute; reflexivity|].
  split; [exact V|]. split; [exact A|]. split.
  - unfold two_versions. repeat apply Forall2_cons; try apply Forall2_nil;
      (split; [split; reflexivity|first [left; reflexivity|right; reflexivity]]).
  - split; [|split; reflexivity]. intros u I Fu.
    destruct I as [<-|[<-|[<-|[<-|[<-|[]]]]]]; try discriminate Fu.
    exact (proj2 (driver_ok_accepted [icc_unit; mkDumped 0x0501 2 [1; 1; 7; 6; 12; 0; 16; 0; 84; 0; 3; 0; 10; 0; 10; 0; 10] (Some (3, [8]))] ltac:(vm_compute; reflexivity))).
Qed.
