(** C104: what of a parsed message changes if the caller reuses the input buffer. *)

From Verif Require Import Base Enums Chunks DDScalar DDString DDRecord RawTypes RawCard Infer DriverCard
  Vu Api Share P_Share Props_Vu Props_Download Props_Dump.

(** ** Splitting *)

(** Where a transfer value starts behind the transfers [pre]: every transfer has a
    tag of two bytes. *)
Definition room (pre : list vu_record) : nat :=
  list_sum (map (fun r => 2 + length (vr_value r))%nat pre) + 2.

Fixpoint shared_records (s : buffer) (o : nat) (rs : list vu_record) : list shared_record :=
  match rs with
  | [] => []
  | r :: t => mkShared (vr_type r) (part s (o + 2) (length (vr_value r)))
              :: shared_records s (o + 2 + length (vr_value r)) t
  end.

Lemma skipn_shared s n o rs : shared_records (skipn n s) o rs = shared_records s (n + o) rs.
Proof.
  revert o. induction rs as [|r t IH]; intros o; cbn [shared_records]; [reflexivity|].
  rewrite IH. f_equal; [|f_equal; lia]. unfold part. rewrite skipn_skipn.
  now rewrite (Nat.add_assoc n o 2).
Qed.

Lemma split_both k s :
  both (fun ss rs => ss = shared_records s 0 rs) (share_split k s) (split_vu k (now s)).
Proof.
  revert s. induction k as [|k IH]; intros s; [reflexivity|]. cbn [share_split split_vu].
  rewrite now_length. destruct (length s =? 0)%nat; [reflexivity|].
  apply both_same; intros _ _. rewrite <- now_part.
  destruct (find_transfer_type _) as [t|]; [|reflexivity]. rewrite <- now_skipn.
  apply both_same; intros n _. apply both_same; intros ? Hg. apply guard_ok in Hg.
  rewrite <- now_skipn. eapply both_bind; [apply IH|]. intros ss rs _ _ ->. cbn [both shared_records].
  rewrite <- now_firstn, skipn_skipn. unfold vr_type, vr_value. cbn [vr_type vr_value].
  assert (L : length (now (firstn (Z.to_nat n) (skipn 2 s))) = Z.to_nat n).
  { rewrite now_length. apply firstn_length_le. unfold len in Hg. rewrite now_length in Hg. lia. }
  cbn [Nat.add]. rewrite L. rewrite skipn_shared. f_equal. f_equal. lia.
Qed.

Lemma shared_agree mask s : agree mask s -> forall rs o,
  Forall (fun a => agree mask (sh_value a)) (shared_records s o rs).
Proof.
  intros A. induction rs as [|r t IH]; intros o; cbn [shared_records]; constructor; [|apply IH].
  cbn. now apply agree_part.
Qed.

(** A record and its value in the buffer *)
Definition matches (a : shared_record) (r : vu_record) : Prop :=
  sh_type a = vr_type r /\ now (sh_value a) = vr_value r.

Lemma shared_matches k s rs : split_vu k (now s) = Ok rs -> Forall2 matches (shared_records s 0 rs) rs.
Proof.
  revert s rs. induction k as [|k IH]; intros s rs E; cbn [split_vu] in E.
  { apply Ok_inj in E. subst. constructor. }
  rewrite now_length in E. destruct (length s =? 0)%nat; [apply Ok_inj in E; subst; constructor|].
  inv_bind E. destruct (find_transfer_type _) as [t|]; [|discriminate].
  rewrite <- now_skipn in E. inv_bind E. inv_bind E. inv_bind E. apply Ok_inj in E. subst rs.
  apply guard_ok in E2. rewrite <- now_skipn in E3. apply IH in E3.
  rewrite <- now_firstn. cbn [shared_records vr_value vr_type].
  assert (L : length (now (firstn (Z.to_nat a0) (skipn 2 s))) = Z.to_nat a0).
  { rewrite now_length. apply firstn_length_le. unfold len in E2. rewrite now_length in E2. lia. }
  rewrite L. constructor.
  - split; reflexivity.
  - rewrite skipn_skipn, skipn_shared in E3. replace (0 + 2 + Z.to_nat a0)%nat with (2 + Z.to_nat a0 + 0)%nat by lia.
    exact E3.
Qed.

(** ** Files *)

Section Mask.
Variable mask : bytes -> bytes.
Variable cm : Z -> Z -> Z.

Lemma step_gen1_like f' f a r : hide_g1 mask f' = hide_g1 mask f -> matches a r ->
  agree mask (sh_value a) -> like (hide_g1 mask) (share_step_gen1 cm f' a) (step_gen1 cm f r).
Proof.
  intros Hf [Ht Hv] A. unfold like, share_step_gen1, step_gen1. rewrite Ht, <- Hv.
  unfold hide_g1 in Hf. injection Hf as H1 H2 H3 H4 H5.
  destruct (vr_type r); try reflexivity;
    (eapply both_bind;
     [first [apply (ov_like mask); assumption | apply (acts_like mask); assumption | apply (rs_like mask); assumption]|]);
    intros x y _ _ Hx; cbn [both]; unfold hide_g1;
    cbn [g1_overview g1_activities g1_events g1_speed g1_technical option_map];
    rewrite ?map_app; cbn [map]; congruence.
Qed.

Lemma step_gen2_like v2 f' f a r : hide_g2 mask f' = hide_g2 mask f -> matches a r ->
  agree mask (sh_value a) -> like (hide_g2 mask) (share_step_gen2 v2 f' a) (step_gen2 v2 f r).
Proof.
  intros Hf [Ht Hv] A. unfold like, share_step_gen2, step_gen2. rewrite Ht, <- Hv.
  pose proof Hf as Hf0. unfold hide_g2 in Hf. injection Hf as H1 H2 H3 H4 H5.
  destruct (role_gen2 v2 (vr_type r)) as [[]|]; try reflexivity; try assumption;
    (eapply both_bind; [apply (gen2_like mask); assumption|]);
    intros x y _ _ Hx; cbn [both]; unfold hide_g2;
    cbn [g2_overview g2_activities g2_events g2_speed g2_technical option_map];
    rewrite ?map_app; cbn [map]; congruence.
Qed.

Lemma fold_like {X} (h : X -> X) (st : X -> shared_record -> res X) (st0 : X -> vu_record -> res X) :
  (forall f' f a r, h f' = h f -> matches a r -> agree mask (sh_value a) -> like h (st f' a) (st0 f r)) ->
  forall ss rs, Forall2 matches ss rs -> Forall (fun a => agree mask (sh_value a)) ss ->
  forall f' f, h f' = h f -> like h (fold_res st f' ss) (fold_res st0 f rs).
Proof.
  intros L ss rs M. induction M as [|a r ss rs Ha M IH]; intros A f' f Hf; cbn [fold_res]; [exact Hf|].
  inversion A; subst. eapply both_bind; [apply L; eassumption|]. intros x y _ _ Hx. now apply IH.
Qed.

Lemma has_v2_matches ss rs : Forall2 matches ss rs -> share_has_v2 ss = has_gen2_v2_transfers rs.
Proof.
  intros M. induction M as [|a r ss rs [Ht _] M IH]; [reflexivity|]. cbn. rewrite Ht. f_equal. exact IH.
Qed.

Lemma vu_like s : agree mask s -> like (hide_vu mask) (share_vu cm s) (unmarshal_vu cm (now s)).
Proof.
  intros A. unfold like, share_vu, unmarshal_vu, unmarshal_raw_vu. rewrite now_length.
  eapply both_bind; [apply split_both|]. intros ss rs _ E ->.
  pose proof (shared_matches _ _ _ E) as M. pose proof (shared_agree mask s A rs 0) as G.
  destruct rs as [|r t]; [reflexivity|].
  remember (shared_records s 0 (r :: t)) as ss eqn:Es. clear Es.
  destruct ss as [|a ss]; [inversion M|].
  assert (Ha : sh_type a = vr_type r) by (inversion M as [|? ? ? ? [Ha _]]; exact Ha). rewrite Ha.
  destruct (_ =? GENERATION_1).
  { eapply both_bind; [apply (fold_like (hide_g1 mask) _ _ step_gen1_like _ _ M G); reflexivity|].
    intros x y _ _ H. cbn. congruence. }
  destruct (_ =? GENERATION_2); [|reflexivity]. rewrite (has_v2_matches _ _ M).
  destruct (has_gen2_v2_transfers _);
    (eapply both_bind; [apply (fold_like (hide_g2 mask) _ _ (step_gen2_like _) _ _ M G); reflexivity|]);
    intros x y _ _ H; cbn; congruence.
Qed.

End Mask.

(** ** Nothing hidden *)

Section Identity.
Let id_mask (b : bytes) : bytes := b.

Lemma opt_id {X} (h : X -> X) : (forall x, h x = x) -> forall o, option_map h o = o.
Proof. intros E [x|]; cbn; [now rewrite E|reflexivity]. Qed.

Lemma lst_id {X} (h : X -> X) : (forall x, h x = x) -> forall l, map h l = l.
Proof. intros E l. rewrite <- (map_id l) at 2. now apply map_ext. Qed.

Ltac shown u := intros []; unfold u; cbn; rewrite ?opt_id, ?lst_id by (first [assumption|reflexivity]); reflexivity.

Lemma hide_id x : hide_vu id_mask x = x.
Proof.
  assert (B : forall b, id_mask b = b) by reflexivity.
  assert (Hia : forall x, hide_ia5 id_mask x = x) by shown hide_ia5.
  assert (Hsv : forall x, hide_sv id_mask x = x) by shown hide_sv.
  assert (Hdt : forall x, hide_date id_mask x = x) by shown hide_date.
  assert (Hct : forall x, hide_ct id_mask x = x) by shown hide_ct.
  assert (Hdi : forall x, hide_di id_mask x = x) by shown hide_di.
  assert (Hoi : forall x, hide_oi id_mask x = x) by shown hide_oi.
  assert (Hfc : forall x, hide_fcn id_mask x = x) by shown hide_fcn.
  assert (Hvr : forall x, hide_vreg id_mask x = x) by shown hide_vreg.
  assert (Hhn : forall x, hide_hn id_mask x = x) by shown hide_hn.
  assert (Hpv : forall x, hide_pv id_mask x = x) by shown hide_pv.
  assert (Hiw : forall x, hide_iw id_mask x = x) by shown hide_iw.
  assert (Hda : forall x, hide_da id_mask x = x) by shown hide_da.
  assert (Hcl : forall x, hide_cl id_mask x = x) by shown hide_cl.
  assert (Hvc : forall x, hide_vc id_mask x = x) by shown hide_vc.
  assert (Hov : forall x, hide_ov id_mask x = x) by shown hide_ov.
  assert (Hvp : forall x, hide_vp id_mask x = x) by shown hide_vp.
  assert (Hac : forall x, hide_acts id_mask x = x) by shown hide_acts.
  assert (Hrs : forall x, hide_rs id_mask x = x) by shown hide_rs.
  assert (Hg1 : forall x, hide_g1 id_mask x = x) by shown hide_g1.
  assert (Hg2 : forall x, hide_g2 id_mask x = x) by shown hide_g2.
  destruct x; cbn; f_equal; auto.
Qed.

Lemma hide_ov_id x : hide_ov id_mask x = x.
Proof.
  pose proof (hide_id (VuGen1 (mkG1 (Some x) [] [] [] []))) as E. cbn in E.
  unfold hide_g1 in E. cbn in E. congruence.
Qed.

Lemma hide_acts_id x : hide_acts id_mask x = x.
Proof.
  pose proof (hide_id (VuGen1 (mkG1 None [x] [] [] []))) as E. cbn in E.
  unfold hide_g1 in E. cbn in E. congruence.
Qed.

Lemma agree_same s : later s = now s -> agree id_mask s.
Proof.
  intros E i n. unfold id_mask, part, later, now in *. rewrite <- !firstn_map, <- !skipn_map. now rewrite E.
Qed.

Lemma like_same {X} (h : X -> X) a b : (forall x, h x = x) -> like h a b -> a = b.
Proof.
  intros E L. unfold like, both in L. destruct a, b; try contradiction; try congruence.
Qed.

Lemma ov_same cm s : later s = now s -> share_overview_gen1 cm s = unmarshal_overview_gen1 cm (now s).
Proof. intros E. eapply like_same; [exact hide_ov_id|]. apply ov_like. now apply agree_same. Qed.

Lemma acts_same cm s : later s = now s -> share_activities_gen1 cm s = unmarshal_activities_gen1 cm (now s).
Proof. intros E. eapply like_same; [exact hide_acts_id|]. apply acts_like. now apply agree_same. Qed.

Lemma vu_same cm s : later s = now s -> share_vu cm s = unmarshal_vu cm (now s).
Proof. intros E. eapply like_same; [exact hide_id|]. apply vu_like. now apply agree_same. Qed.

Lemma rs_same s : later s = now s -> share_raw_signed s = unmarshal_raw_signed (now s).
Proof.
  intros E. apply (like_same (hide_rs id_mask)); [now intros []|]. apply rs_like. now apply agree_same.
Qed.

End Identity.

(** ** The raw bytes *)

Ltac peel H := repeat first [ apply bind_ok in H as ([? ?] & _ & H) | apply bind_ok in H as (? & _ & H) ].

Lemma ov_share_raw cm s x : share_overview_gen1 cm s = Ok x -> ov_raw x = later s.
Proof. intros H. unfold share_overview_gen1 in H. cbv zeta in H. peel H. apply Ok_inj in H. now subst. Qed.

Lemma ov_unmarshal_raw cm d x : unmarshal_overview_gen1 cm d = Ok x -> ov_raw x = d.
Proof. intros H. unfold unmarshal_overview_gen1 in H. cbv zeta in H. peel H. apply Ok_inj in H. now subst. Qed.

Lemma acts_share_raw cm s x : share_activities_gen1 cm s = Ok x -> Vu.ac_raw x = later s.
Proof. intros H. unfold share_activities_gen1 in H. cbv zeta in H. peel H. apply Ok_inj in H. now subst. Qed.

Lemma acts_unmarshal_raw cm d x : unmarshal_activities_gen1 cm d = Ok x -> Vu.ac_raw x = d.
Proof. intros H. unfold unmarshal_activities_gen1 in H. cbv zeta in H. peel H. apply Ok_inj in H. now subst. Qed.

Lemma rs_share_raw s x : share_raw_signed s = Ok x -> rs_raw x = later s.
Proof. intros H. unfold share_raw_signed in H. peel H. apply Ok_inj in H. now subst. Qed.

Lemma rs_unmarshal_raw d x : unmarshal_raw_signed d = Ok x -> rs_raw x = d.
Proof. intros H. unfold unmarshal_raw_signed in H. peel H. apply Ok_inj in H. now subst. Qed.

Lemma gen2_share_raw t s x : share_gen2 t s = Ok x -> x = later s.
Proof. intros H. unfold share_gen2 in H. peel H. apply Ok_inj in H. now subst. Qed.

Lemma gen2_unmarshal_raw t d x : unmarshal_gen2 t d = Ok x -> x = d.
Proof. intros H. unfold unmarshal_gen2 in H. peel H. apply Ok_inj in H. now subst. Qed.

Lemma ov_iff cm s x' x : share_overview_gen1 cm s = Ok x' -> unmarshal_overview_gen1 cm (now s) = Ok x ->
  (x' = x <-> later s = now s).
Proof.
  intros Hx' Hx. split; intros E.
  - rewrite <- (ov_share_raw _ _ _ Hx'), <- (ov_unmarshal_raw _ _ _ Hx). now subst.
  - rewrite (ov_same cm s E) in Hx'. congruence.
Qed.

Lemma acts_iff cm s x' x : share_activities_gen1 cm s = Ok x' -> unmarshal_activities_gen1 cm (now s) = Ok x ->
  (x' = x <-> later s = now s).
Proof.
  intros Hx' Hx. split; intros E.
  - rewrite <- (acts_share_raw _ _ _ Hx'), <- (acts_unmarshal_raw _ _ _ Hx). now subst.
  - rewrite (acts_same cm s E) in Hx'. congruence.
Qed.

Lemma rs_iff s x' x : share_raw_signed s = Ok x' -> unmarshal_raw_signed (now s) = Ok x ->
  (x' = x <-> later s = now s).
Proof.
  intros Hx' Hx. split; intros E.
  - rewrite <- (rs_share_raw _ _ Hx'), <- (rs_unmarshal_raw _ _ Hx). now subst.
  - rewrite (rs_same s E) in Hx'. congruence.
Qed.

Lemma gen2_iff t s x' x : share_gen2 t s = Ok x' -> unmarshal_gen2 t (now s) = Ok x ->
  (x' = x <-> later s = now s).
Proof.
  intros Hx' Hx. rewrite (gen2_share_raw _ _ _ Hx'), (gen2_unmarshal_raw _ _ _ Hx). reflexivity.
Qed.

(** ** Which transfers are kept *)

Definition is_overview (t : transfer_type) : bool :=
  match t with OVERVIEW_GEN1 | OVERVIEW_GEN2_V1 | OVERVIEW_GEN2_V2 => true | _ => false end.

(** The interface version is dropped, and of the overviews all but the last. *)
Definition kept (t : transfer_type) (behind : list transfer_type) : Prop :=
  t <> DOWNLOAD_INTERFACE_VERSION /\ (is_overview t = true -> existsb is_overview behind = false).

Fixpoint untouched (ss : list shared_record) : Prop :=
  match ss with
  | [] => True
  | a :: t => (kept (sh_type a) (map sh_type t) -> later (sh_value a) = now (sh_value a)) /\ untouched t
  end.

Lemma app_last {X} (l l' : list X) x x' : l ++ [x] = l' ++ [x'] <-> l = l' /\ x = x'.
Proof. split; [apply app_inj_tail|intros [-> ->]; reflexivity]. Qed.

Definition same1 (f' f : vu_gen1) (ov : bool) : Prop :=
  (ov = false -> g1_overview f' = g1_overview f) /\ g1_activities f' = g1_activities f /\
  g1_events f' = g1_events f /\ g1_speed f' = g1_speed f /\ g1_technical f' = g1_technical f.

Definition same2 (f' f : vu_gen2) (ov : bool) : Prop :=
  (ov = false -> g2_overview f' = g2_overview f) /\ g2_activities f' = g2_activities f /\
  g2_events f' = g2_events f /\ g2_speed f' = g2_speed f /\ g2_technical f' = g2_technical f.

Ltac kept_other := unfold kept; cbn [is_overview]; intuition (try discriminate; try congruence).

Lemma fold1_iff cm ss rs : Forall2 matches ss rs -> forall f' f g' g,
  fold_res (share_step_gen1 cm) f' ss = Ok g' -> fold_res (step_gen1 cm) f rs = Ok g ->
  (g' = g <-> same1 f' f (existsb is_overview (map sh_type ss)) /\ untouched ss).
Proof.
  intros M. induction M as [|a r ss rs [Ht Hv] M IH]; intros f' f g' g E' E; cbn [fold_res] in E', E.
  { apply Ok_inj in E', E. subst. cbn. unfold same1. split.
    - intros <-. repeat split.
    - intros [(H1 & H2 & H3 & H4 & H5) _]. destruct g', g. cbn in *. specialize (H1 eq_refl). congruence. }
  inv_bind E'. rename a0 into f1', E0 into Es'. inv_bind E. rename a0 into f1, E0 into Es.
  rewrite (IH f1' f1 g' g E' E). clear IH E' E. cbn [map existsb untouched].
  unfold share_step_gen1 in Es'. unfold step_gen1 in Es. rewrite <- Ht, <- Hv in Es.
  destruct (sh_type a) eqn:T; try discriminate Es;
    inv_bind Es'; apply Ok_inj in Es'; subst f1'; inv_bind Es; apply Ok_inj in Es; subst f1;
    unfold same1; cbn [g1_overview g1_activities g1_events g1_speed g1_technical is_overview orb];
    rewrite ?app_last.
  - pose proof (ov_iff _ _ _ _ E E0) as I. unfold kept. cbn [is_overview].
    assert (J : (existsb is_overview (map sh_type ss) = false -> Some a0 = Some a1) <->
                (existsb is_overview (map sh_type ss) = false -> later (sh_value a) = now (sh_value a))).
    { split; intros Q W; specialize (Q W); [apply I; congruence|f_equal; now apply I]. }
    rewrite J. split.
    + intros [(Q & H2 & H3 & H4 & H5) U]. repeat split; auto; [discriminate|]. intros [_ K]. auto.
    + intros [(_ & H2 & H3 & H4 & H5) [K U]]. repeat split; auto. intros W. apply K. split; [discriminate|auto].
  - pose proof (acts_iff _ _ _ _ E E0) as I. rewrite I. kept_other.
  - pose proof (rs_iff _ _ _ E E0) as I. rewrite I. kept_other.
  - pose proof (rs_iff _ _ _ E E0) as I. rewrite I. kept_other.
  - pose proof (rs_iff _ _ _ E E0) as I. rewrite I. kept_other.
Qed.

Lemma role_overview v2 t x : role_gen2 v2 t = Some x ->
  is_overview t = match x with R_overview => true | _ => false end /\
  (t = DOWNLOAD_INTERFACE_VERSION <-> x = R_skip).
Proof. destruct t, v2; intros E; try discriminate E; injection E as <-; (split; [reflexivity|]); split; congruence. Qed.

Lemma fold2_iff v2 ss rs : Forall2 matches ss rs -> forall f' f g' g,
  fold_res (share_step_gen2 v2) f' ss = Ok g' -> fold_res (step_gen2 v2) f rs = Ok g ->
  (g' = g <-> same2 f' f (existsb is_overview (map sh_type ss)) /\ untouched ss).
Proof.
  intros M. induction M as [|a r ss rs [Ht Hv] M IH]; intros f' f g' g E' E; cbn [fold_res] in E', E.
  { apply Ok_inj in E', E. subst. cbn. unfold same2. split.
    - intros <-. repeat split.
    - intros [(H1 & H2 & H3 & H4 & H5) _]. destruct g', g. cbn in *. specialize (H1 eq_refl). congruence. }
  inv_bind E'. rename a0 into f1', E0 into Es'. inv_bind E. rename a0 into f1, E0 into Es.
  rewrite (IH f1' f1 g' g E' E). clear IH E' E. cbn [map existsb untouched].
  unfold share_step_gen2 in Es'. unfold step_gen2 in Es. rewrite <- Ht, <- Hv in Es.
  destruct (role_gen2 v2 (sh_type a)) as [x|] eqn:R; [|discriminate Es].
  destruct (role_overview _ _ _ R) as [O D]. unfold kept. rewrite O.
  destruct x; cbn [orb].
  - inv_bind Es'; apply Ok_inj in Es'; subst f1'; inv_bind Es; apply Ok_inj in Es; subst f1.
    unfold same2; cbn [g2_overview g2_activities g2_events g2_speed g2_technical].
    pose proof (gen2_iff _ _ _ _ E E0) as I.
    assert (J : (existsb is_overview (map sh_type ss) = false -> Some a0 = Some a1) <->
                (existsb is_overview (map sh_type ss) = false -> later (sh_value a) = now (sh_value a))).
    { split; intros Q W; specialize (Q W); [apply I; congruence|f_equal; now apply I]. }
    rewrite J. assert (ND : sh_type a <> DOWNLOAD_INTERFACE_VERSION) by (intros Q; apply D in Q; discriminate).
    split.
    + intros [(Q & H2 & H3 & H4 & H5) U]. repeat split; auto; [discriminate|]. intros [_ K]. auto.
    + intros [(_ & H2 & H3 & H4 & H5) [K U]]. repeat split; auto.
  - inv_bind Es'; apply Ok_inj in Es'; subst f1'; inv_bind Es; apply Ok_inj in Es; subst f1.
    unfold same2; cbn [g2_overview g2_activities g2_events g2_speed g2_technical]. rewrite ?app_last.
    rewrite (gen2_iff _ _ _ _ E E0). intuition (try discriminate; try congruence).
  - inv_bind Es'; apply Ok_inj in Es'; subst f1'; inv_bind Es; apply Ok_inj in Es; subst f1.
    unfold same2; cbn [g2_overview g2_activities g2_events g2_speed g2_technical]. rewrite ?app_last.
    rewrite (gen2_iff _ _ _ _ E E0). intuition (try discriminate; try congruence).
  - inv_bind Es'; apply Ok_inj in Es'; subst f1'; inv_bind Es; apply Ok_inj in Es; subst f1.
    unfold same2; cbn [g2_overview g2_activities g2_events g2_speed g2_technical]. rewrite ?app_last.
    rewrite (gen2_iff _ _ _ _ E E0). intuition (try discriminate; try congruence).
  - inv_bind Es'; apply Ok_inj in Es'; subst f1'; inv_bind Es; apply Ok_inj in Es; subst f1.
    unfold same2; cbn [g2_overview g2_activities g2_events g2_speed g2_technical]. rewrite ?app_last.
    rewrite (gen2_iff _ _ _ _ E E0). intuition (try discriminate; try congruence).
  - apply Ok_inj in Es', Es. subst f1' f1. intuition (try discriminate; try congruence).
Qed.

Lemma vu_iff cm s rs g' g : unmarshal_raw_vu (now s) = Ok rs -> share_vu cm s = Ok g' ->
  unmarshal_vu cm (now s) = Ok g -> (g' = g <-> untouched (shared_records s 0 rs)).
Proof.
  intros E Eg' Eg. unfold share_vu in Eg'. unfold unmarshal_vu in Eg. unfold unmarshal_raw_vu in *.
  rewrite now_length in *. pose proof (split_both (length s) s) as B. rewrite E in *. cbn [bind] in Eg.
  destruct (share_split (length s) s) as [ss|e|]; cbn in B; try contradiction. subst ss. cbn [bind] in Eg'.
  pose proof (shared_matches _ _ _ E) as M. destruct rs as [|r t]; [discriminate|].
  remember (shared_records s 0 (r :: t)) as ss eqn:Es. clear Es.
  destruct ss as [|a ss]; [inversion M|].
  assert (Ha : sh_type a = vr_type r) by (inversion M as [|? ? ? ? [Ha _]]; exact Ha). rewrite Ha in Eg'.
  destruct (_ =? GENERATION_1).
  { inv_bind Eg'. inv_bind Eg. apply Ok_inj in Eg', Eg. subst g' g.
    pose proof (fold1_iff cm _ _ M _ _ _ _ E0 E1) as I.
    transitivity (a0 = a1); [split; congruence|]. rewrite I. unfold same1. intuition. }
  destruct (_ =? GENERATION_2); [|discriminate]. rewrite (has_v2_matches _ _ M) in Eg'.
  destruct (has_gen2_v2_transfers _); inv_bind Eg'; inv_bind Eg; apply Ok_inj in Eg', Eg; subst g' g;
    pose proof (fold2_iff _ _ _ M _ _ _ _ E0 E1) as I;
    (transitivity (a0 = a1); [split; congruence|]); rewrite I; unfold same2; intuition.
Qed.

Lemma untouched_iff s rs : untouched (shared_records s 0 rs) <->
  forall pre r post, rs = pre ++ r :: post -> kept (vr_type r) (map vr_type post) ->
    later (part s (room pre) (length (vr_value r))) = now (part s (room pre) (length (vr_value r))).
Proof.
  assert (T : forall o l, map sh_type (shared_records s o l) = map vr_type l).
  { intros o l. revert o. induction l as [|r l IH]; intros o; cbn; [reflexivity|]. now rewrite IH. }
  enough (G : forall o, untouched (shared_records s o rs) <->
    forall pre r post, rs = pre ++ r :: post -> kept (vr_type r) (map vr_type post) ->
      later (part s (o + room pre) (length (vr_value r))) = now (part s (o + room pre) (length (vr_value r))))
    by (apply (G 0%nat)).
  induction rs as [|r t IH]; intros o; cbn [shared_records untouched sh_type sh_value].
  - split; [|trivial]. intros _ pre r post E. destruct pre; discriminate.
  - rewrite T, IH. split.
    + intros [H1 H2] pre x post E K. destruct pre as [|y pre]; cbn [List.app] in E; injection E as <- E.
      * subst post. unfold room. cbn [map list_sum fold_right Nat.add]. exact (H1 K).
      * specialize (H2 pre x post E K). unfold room in *. cbn [map]. unfold list_sum in *. cbn [fold_right].
        replace (o + (2 + length (vr_value r) + fold_right Nat.add 0 (map (fun r => 2 + length (vr_value r)) pre) + 2))%nat
          with (o + 2 + length (vr_value r) + (fold_right Nat.add 0 (map (fun r => 2 + length (vr_value r)) pre) + 2))%nat by lia.
        exact H2.
    + intros H. split.
      * intros K. exact (H [] r t eq_refl K).
      * intros pre x post E K. specialize (H (r :: pre) x post). rewrite E in H. specialize (H eq_refl K).
        unfold room in *. cbn [map] in H. unfold list_sum in *. cbn [fold_right] in H.
        replace (o + 2 + length (vr_value r) + (fold_right Nat.add 0 (map (fun r => 2 + length (vr_value r)) pre) + 2))%nat
          with (o + (2 + length (vr_value r) + fold_right Nat.add 0 (map (fun r => 2 + length (vr_value r)) pre) + 2))%nat by lia.
        exact H.
Qed.

(** ** C104 *)

(** A file with all bytes zero that show the buffer. *)
Definition zeroed (b : bytes) : bytes := repeat 0 (length b).

Definition hide_file (f : file) : file :=
  mkFile (file_type f) (option_map (hide_vu zeroed) (file_vu f)) (file_driver_card f) (file_raw_card f).

Lemma now_combine d w : length w = length d -> now (combine d w) = d.
Proof.
  revert w. induction d as [|b d IH]; intros [|c w] L; cbn in *; try discriminate; [reflexivity|].
  f_equal. apply IH. lia.
Qed.

Lemma later_combine d w : length w = length d -> later (combine d w) = w.
Proof.
  revert w. induction d as [|b d IH]; intros [|c w] L; cbn in *; try discriminate; [reflexivity|].
  f_equal. apply IH. lia.
Qed.

Lemma later_part s i n : later (part s i n) = sub (later s) i n.
Proof. unfold later, part, sub. now rewrite <- firstn_map, <- skipn_map. Qed.

Lemma agree_zeroed s : agree zeroed s.
Proof. intros i n. unfold zeroed. now rewrite later_length, now_length. Qed.

(** As long as the buffer is left alone the two models agree. *)
Theorem C104_untouched_buffer : forall cm d, seen_file cm d d = unmarshal_file cm d.
Proof.
  intros cm d. unfold seen_file, unmarshal_file. destruct (_ <? _)%nat; [reflexivity|].
  destruct (_ =? 0x76); [|reflexivity].
  rewrite vu_same by (now rewrite later_combine, now_combine). now rewrite now_combine.
Qed.

(** Missing: that the message does not depend on the buffer at all. *)
Theorem C104_reused_buffer_partial : forall cm d w f, length w = length d -> unmarshal_file cm d = Ok f ->
  exists f', seen_file cm d w = Ok f' /\
    hide_file f' = hide_file f /\
    (file_vu f = None -> f' = f) /\
    (forall v rs, file_vu f = Some v -> unmarshal_raw_vu d = Ok rs ->
       (f' = f <-> forall pre r post, rs = pre ++ r :: post -> kept (vr_type r) (map vr_type post) ->
                     sub w (room pre) (length (vr_value r)) = sub d (room pre) (length (vr_value r)))).
Proof.
  intros cm d w f L E. unfold seen_file. unfold unmarshal_file in E. destruct (_ <? _)%nat; [discriminate|].
  destruct (_ =? 0x76).
  - apply bind_ok in E as (v & Ev & E). apply Ok_inj in E. subst f.
    pose proof (vu_like zeroed cm (combine d w) (agree_zeroed _)) as K. rewrite (now_combine d w L), Ev in K.
    destruct (share_vu cm (combine d w)) as [v'| |] eqn:Ev'; cbn in K; try contradiction.
    eexists. split; [reflexivity|]. split; [unfold hide_file; cbn; congruence|].
    split; [discriminate|]. intros v0 rs Q Ers. cbn in Q. injection Q as <-.
    assert (I : v' = v <-> untouched (shared_records (combine d w) 0 rs)).
    { apply (vu_iff cm); [now rewrite now_combine|assumption|now rewrite now_combine]. }
    transitivity (v' = v); [split; congruence|]. rewrite I, untouched_iff.
    split; intros H pre r post Er Kr; specialize (H pre r post Er Kr); rewrite later_part, now_part in *;
      rewrite later_combine, now_combine in *; assumption.
  - destruct (_ =? 0x0002); [|discriminate]. apply bind_ok in E as (rs & Ers & E). rewrite Ers. cbn [bind].
    destruct (_ =? DRIVER_CARD).
    + apply bind_ok in E as (c & Ec & E). rewrite Ec. cbn [bind]. apply Ok_inj in E. subst f.
      eexists. split; [reflexivity|]. split; [reflexivity|]. split; [reflexivity|]. intros v' rs' Q. discriminate Q.
    + apply Ok_inj in E. subst f.
      eexists. split; [reflexivity|]. split; [reflexivity|]. split; [reflexivity|]. intros v' rs' Q. discriminate Q.
Qed.

(** The caller reuses the buffer: the certificates and the signature in the
    message are gone. *)
Theorem C104_reused_buffer_refuted : exists d w f f' x x', length w = length d /\
  unmarshal_file no_charmap d = Ok f /\ seen_file no_charmap d w = Ok f' /\
  file_vu f = Some (VuGen1 x) /\ file_vu f' = Some (VuGen1 x') /\
  option_map ov_signature (g1_overview x) <> option_map ov_signature (g1_overview x') /\
  option_map ov_ms_cert (g1_overview x') = Some (repeat 238 194).
Proof.
  exists five, (repeat 238 (length five)).
  destruct (unmarshal_file no_charmap five) as [f| |] eqn:E; [|vm_compute in E; discriminate E..].
  destruct (seen_file no_charmap five (repeat 238 (length five))) as [f'| |] eqn:E';
    [|vm_compute in E'; discriminate E'..].
  destruct (file_vu f) as [[x|x|x]|] eqn:V; try (vm_compute in E; apply Ok_inj in E; subst f; discriminate V).
  destruct (file_vu f') as [[x'|x'|x']|] eqn:V'; try (vm_compute in E'; apply Ok_inj in E'; subst f'; discriminate V').
  exists f, f', x, x'. split; [apply repeat_length|]. split; [reflexivity|]. split; [reflexivity|].
  split; [exact V|]. split; [exact V'|]. split.
  - vm_compute in E, E'. apply Ok_inj in E, E'. subst f f'. injection V as <-. injection V' as <-. vm_compute. discriminate.
  - vm_compute in E'. apply Ok_inj in E'. subst f'. injection V' as <-. vm_compute. reflexivity.
Qed.

(** The first overview of two may be overwritten. *)
Example C104_example :
  let d := Props_Vu.download [(0x21, concat (repeat one_array 11)); (0x21, concat (repeat one_array 11))] in
  let n := length (concat (repeat one_array 11)) in
  is_ok (unmarshal_file no_charmap d) = true /\
  seen_file no_charmap d (repeat 238 (n + 2) ++ skipn (n + 2) d) = unmarshal_file no_charmap d.
Proof. vm_compute. split; reflexivity. Qed.
