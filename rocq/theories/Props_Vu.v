(** C06 and C49 to C53: vehicle unit downloads. *)

From Verif Require Import Base Enums Chunks DDScalar DDString DDRecord P_String RawTypes P_Records P_RawCard Field P_Scanner.
From Verif Require Import Cert DriverCard Vu Verify Api P_Vu Props_Dump.

(** A download: transfers given by TREP and value. *)
Definition transfer := (Z * bytes)%type.

Definition tr_bytes (t : transfer) : bytes := 0x76 :: fst t :: snd t.

Definition download (ts : list transfer) : bytes := concat (map tr_bytes ts).

(** The value has the parts its TREP requires ([layouts], [fills]). *)
Definition well_formed (t : transfer) : Prop := exists l tail, In (fst t, l, tail) layouts /\ fills l tail (snd t).

Definition vu (f : vu_file) : file := mkFile FILE_VEHICLE_UNIT (Some f) None None.

Definition values (k : Z) (ts : list transfer) : list bytes := map snd (filter (fun t => fst t =? k) ts).

Definition last_one {A} (l : list A) : list A := match rev l with [] => [] | x :: _ => [x] end.

(** ** From records to transfers *)

Definition tr_of (r : vu_record) : transfer := (trep_of (vr_type r), vr_value r).

Definition no_card (rs : list vu_record) : Prop := Forall (fun r => vr_type r <> CARD_DOWNLOAD) rs.

Lemma value_of_layout t v e : t <> CARD_DOWNLOAD -> value_of t v e ->
  exists l tail, layout_of t = Some (l, tail) /\ fills l tail v.
Proof.
  unfold value_of. intros N H. destruct (layout_of t) as [[l tail]|] eqn:E; eauto. destruct t; try discriminate. now destruct N.
Qed.

Lemma splits_download d rs : splits d rs -> no_card rs -> d = download (map tr_of rs) /\ Forall well_formed (map tr_of rs).
Proof.
  induction 1 as [|t v e rs V S IH]; intros N; [split; [reflexivity|constructor]|].
  apply Forall_cons_iff in N as [N1 N2]. cbn [vr_type] in N1. destruct (IH N2) as [E F]. split.
  - unfold download in *. cbn [map concat tr_of vr_type vr_value tr_bytes fst snd List.app]. now rewrite <- E.
  - constructor; auto. destruct (value_of_layout t v e N1 V) as (l & tail & L & FL).
    exists l, tail. split; auto. cbn [tr_of fst vr_type]. now apply layout_in.
Qed.

Lemma download_splits ts : Forall well_formed ts -> exists rs, splits (download ts) rs /\ map tr_of rs = ts /\ no_card rs.
Proof.
  induction 1 as [|[k v] ts (l & tail & I & F) W (rs & S & E & N)].
  - exists []. split; [constructor|]. split; [reflexivity|constructor].
  - cbn [fst snd] in *. destruct (layouts_type k l tail I) as (t & -> & L).
    exists (mkVR (0x7600 + trep_of t) t v :: rs). split; [|split].
    + unfold download. cbn [map concat tr_bytes fst snd List.app]. constructor; auto. unfold value_of. now rewrite L.
    + cbn [map tr_of vr_type vr_value]. now rewrite E.
    + constructor; auto. cbn [vr_type]. intros ->. discriminate.
Qed.

Lemma splits_inj d rs rs' : splits d rs -> splits d rs' -> rs = rs'.
Proof.
  intros A B. apply split_ok with (n := length d) in A; auto. apply split_ok with (n := length d) in B; auto.
  rewrite A in B. now apply Ok_inj in B.
Qed.

(** Downloads can be read in one way only, even when more follows. *)
Lemma download_prefix ts : Forall well_formed ts -> forall us x, Forall well_formed us ->
  download ts = download us ++ x -> exists ts', ts = us ++ ts'.
Proof.
  induction 1 as [|[k v] ts (l & tail & I & F) W IH]; intros us x U E.
  - destruct us as [|[k v] us]; [exists []; reflexivity|]. discriminate E.
  - destruct us as [|[k' v'] us]; [eexists; reflexivity|]. inversion U as [|? ? (l' & tail' & I' & F') U']; subst.
    unfold download in *. cbn [map concat tr_bytes fst snd List.app] in *.
    apply (f_equal (@tl Z)) in E. cbn [tl] in E. pose proof (f_equal (hd 0) E) as K. cbn [hd] in K. subst k'.
    apply (f_equal (@tl Z)) in E. cbn [tl] in E.
    destruct (layouts_type k l tail I) as (t & -> & L). destruct (layouts_type _ l' tail' I') as (t' & T & L').
    apply trep_inj in T. subst t'. rewrite L in L'. injection L' as <- <-.
    rewrite <- app_assoc in E. destruct (fills_unique l tail v F v' _ _ F' E) as [<- E'].
    destruct (IH us x U' E') as [ts' ->]. exists ts'. reflexivity.
Qed.

(** ** Building the message *)

Definition kept_gen1 (f : vu_gen1) : list (Z * list bytes) :=
  [(0x01, match g1_overview f with Some o => [ov_raw o] | None => [] end);
   (0x02, map ac_raw (g1_activities f)); (0x03, map rs_raw (g1_events f));
   (0x04, map rs_raw (g1_speed f)); (0x05, map rs_raw (g1_technical f))].

Definition opt_list {A} (o : option A) : list A := match o with Some a => [a] | None => [] end.

Lemma last_one_snoc {A} (l : list A) a : last_one (l ++ [a]) = [a].
Proof. unfold last_one. now rewrite rev_app_distr. Qed.

Lemma values_app k ts us : values k (ts ++ us) = values k ts ++ values k us.
Proof. unfold values. now rewrite filter_app, map_app. Qed.

(** What has been built from the transfers so far. *)
Definition built1 (cm : Z -> Z -> Z) (ts : list transfer) (f : vu_gen1) : Prop :=
  Forall (fun t => In (fst t) [0x01; 0x02; 0x03; 0x04; 0x05]) ts /\
  map ov_raw (opt_list (g1_overview f)) = last_one (values 0x01 ts) /\
  map ac_raw (g1_activities f) = values 0x02 ts /\ map rs_raw (g1_events f) = values 0x03 ts /\
  map rs_raw (g1_speed f) = values 0x04 ts /\ map rs_raw (g1_technical f) = values 0x05 ts /\
  Forall (fun o => unmarshal_overview_gen1 cm (ov_raw o) = Ok o) (opt_list (g1_overview f)) /\
  Forall (fun a => unmarshal_activities_gen1 cm (ac_raw a) = Ok a) (g1_activities f) /\
  Forall (fun a => unmarshal_raw_signed (rs_raw a) = Ok a) (g1_events f ++ g1_speed f ++ g1_technical f).

Lemma overview_raw cm d o : unmarshal_overview_gen1 cm d = Ok o -> ov_raw o = d.
Proof.
  unfold unmarshal_overview_gen1. intros E.
  repeat (apply bind_ok in E as (? & _ & E); try match type of E with (let (_, _) := ?p in _) = _ => destruct p end).
  apply Ok_inj in E. now subst.
Qed.

Lemma activities_raw cm d o : unmarshal_activities_gen1 cm d = Ok o -> ac_raw o = d.
Proof.
  unfold unmarshal_activities_gen1. intros E.
  repeat (apply bind_ok in E as (? & _ & E); try match type of E with (let (_, _) := ?p in _) = _ => destruct p end).
  apply Ok_inj in E. now subst.
Qed.

Lemma raw_signed_raw d o : unmarshal_raw_signed d = Ok o -> rs_raw o = d.
Proof. unfold unmarshal_raw_signed. intros E. apply bind_ok in E as (? & _ & E). apply Ok_inj in E. now subst. Qed.

Lemma step_built1 cm ts f r f' : built1 cm ts f -> step_gen1 cm f r = Ok f' -> built1 cm (ts ++ [tr_of r]) f'.
Proof.
  intros (T & A & B & C & D & E & P1 & P2 & P3) S. unfold step_gen1 in S.
  rewrite !Forall_app in P3. destruct P3 as (P3 & P4 & P5).
  destruct r as [tag t v]. cbn [vr_type vr_value] in S. unfold built1. rewrite !values_app.
  destruct t; try discriminate S; apply bind_ok in S as (x & X & S); apply Ok_inj in S; subst f';
    cbn [g1_overview g1_activities g1_events g1_speed g1_technical];
    change (values _ [tr_of (mkVR tag OVERVIEW_GEN1 v)]) with (@nil bytes) || idtac;
    (split; [apply Forall_app; split; [exact T|apply Forall_cons; [cbn; tauto|apply Forall_nil]]|]).
  - apply overview_raw in X as XR. unfold values at 2 4 6 8 10. cbn [tr_of vr_type vr_value filter fst]. cbn.
    rewrite last_one_snoc, !app_nil_r. subst v. rewrite !Forall_app. repeat split; auto; repeat constructor; auto.
  - apply activities_raw in X as XR. unfold values at 2 4 6 8 10. cbn [tr_of vr_type vr_value filter fst]. cbn.
    rewrite !app_nil_r, map_app, B. cbn [map]. rewrite XR. rewrite !Forall_app. repeat split; auto; repeat constructor; auto; now rewrite XR.
  - apply raw_signed_raw in X as XR. unfold values at 2 4 6 8 10. cbn [tr_of vr_type vr_value filter fst]. cbn.
    rewrite !app_nil_r, map_app, C. cbn [map]. rewrite XR. rewrite !Forall_app. repeat split; auto; repeat constructor; auto; now rewrite XR.
  - apply raw_signed_raw in X as XR. unfold values at 2 4 6 8 10. cbn [tr_of vr_type vr_value filter fst]. cbn.
    rewrite !app_nil_r, map_app, D. cbn [map]. rewrite XR. rewrite !Forall_app. repeat split; auto; repeat constructor; auto; now rewrite XR.
  - apply raw_signed_raw in X as XR. unfold values at 2 4 6 8 10. cbn [tr_of vr_type vr_value filter fst]. cbn.
    rewrite !app_nil_r, map_app, E. cbn [map]. rewrite XR. rewrite !Forall_app. repeat split; auto; repeat constructor; auto; now rewrite XR.
Qed.

Lemma fold_built1 cm rs : forall ts f f', built1 cm ts f -> fold_res (step_gen1 cm) f rs = Ok f' -> built1 cm (ts ++ map tr_of rs) f'.
Proof.
  induction rs as [|r rs IH]; intros ts f f' B E; cbn [fold_res map] in *.
  - apply Ok_inj in E. subst. now rewrite app_nil_r.
  - apply bind_ok in E as (g & S & E). apply step_built1 with (ts := ts) in S; auto.
    specialize (IH (ts ++ [tr_of r]) g f' S E). now rewrite <- app_assoc in IH.
Qed.

Lemma empty_built1 cm : built1 cm [] empty_gen1.
Proof. unfold built1. cbn. repeat split; constructor. Qed.

(** The message of a second-generation download. *)
Definition gen2_message (overview : Z) (ts : list transfer) : vu_gen2 :=
  mkG2 (match last_one (values overview ts) with v :: _ => Some v | [] => None end) [] [] (values 0x24 ts) [].

Definition overview_trep (v2 : bool) : Z := if v2 then 0x31 else 0x21.
Definition gen2_treps (v2 : bool) : list Z := if v2 then [0x00; 0x31; 0x24] else [0x21; 0x24].

Lemma well_formed_gen2 t v : well_formed (trep_of t, v) ->
  (arrays_sized t > 0)%nat -> fills (repeat array (arrays_sized t)) 0 v.
Proof.
  intros (l & tail & I & F) P. cbn [fst snd] in *. apply layout_in in I.
  destruct t; cbn [layout_of] in I; try (cbn in P; lia); injection I as <- <-; exact F.
Qed.

Lemma step_gen2_wf v2 ts r : well_formed (tr_of r) -> bytes_ok (vr_value r) ->
  if existsb (Z.eqb (fst (tr_of r))) (gen2_treps v2)
  then step_gen2 v2 (gen2_message (overview_trep v2) ts) r = Ok (gen2_message (overview_trep v2) (ts ++ [tr_of r]))
  else exists x, step_gen2 v2 (gen2_message (overview_trep v2) ts) r = Err x.
Proof.
  destruct r as [tag t v]. intros W B. cbn [vr_value] in B. unfold tr_of in W. cbn [vr_type vr_value] in W.
  pose proof (fun P => gen2_value t v (well_formed_gen2 t v W P) B) as G.
  unfold step_gen2, tr_of. cbn [vr_type vr_value fst].
  unfold gen2_message. rewrite !values_app.
  destruct t, v2; cbn; try (eexists; reflexivity).
  all: try (unfold last_one; cbn; rewrite ?app_nil_r; reflexivity).
  all: specialize (G ltac:(cbn; lia)); cbn in G.
  all: try (match type of G with ex _ => destruct G as [x G]; rewrite G; eexists; reflexivity end).
  all: rewrite G; cbn [bind]; rewrite ?last_one_snoc, ?app_nil_r; reflexivity.
Qed.

Lemma existsb_in k l : existsb (Z.eqb k) l = true <-> In k l.
Proof.
  rewrite existsb_exists. split; [intros (x & I & E); apply Z.eqb_eq in E; now subst|intros I; exists k; split; auto; apply Z.eqb_refl].
Qed.

Lemma fold_gen2 v2 rs : forall ts, Forall well_formed (map tr_of rs) -> Forall (fun r => bytes_ok (vr_value r)) rs ->
  (fold_res (step_gen2 v2) (gen2_message (overview_trep v2) ts) rs <> Panic) /\
  forall f, fold_res (step_gen2 v2) (gen2_message (overview_trep v2) ts) rs = Ok f <->
    Forall (fun t => In (fst t) (gen2_treps v2)) (map tr_of rs) /\ f = gen2_message (overview_trep v2) (ts ++ map tr_of rs).
Proof.
  induction rs as [|r rs IH]; intros ts W B; cbn [fold_res map] in *.
  - split; [discriminate|]. intros f. rewrite app_nil_r. split; [intros E; apply Ok_inj in E; split; [constructor|auto]|].
    intros [_ ->]. reflexivity.
  - apply Forall_cons_iff in W as [W1 W]. apply Forall_cons_iff in B as [B1 B].
    pose proof (step_gen2_wf v2 ts r W1 B1) as S.
    destruct (existsb (Z.eqb (fst (tr_of r))) (gen2_treps v2)) eqn:E.
    + rewrite S. cbn [bind]. destruct (IH (ts ++ [tr_of r]) W B) as [NP H]. split; auto. intros f. rewrite H, Forall_cons_iff.
      rewrite <- app_assoc. cbn [List.app]. apply existsb_in in E. tauto.
    + destruct S as [x S]. rewrite S. cbn [bind]. split; [discriminate|]. intros f. split; [discriminate|].
      rewrite Forall_cons_iff. intros [[H _] _]. apply existsb_in in H. congruence.
Qed.

(** ** Records of a split download *)

Lemma splits_bytes d rs : splits d rs -> bytes_ok d -> Forall (fun r => bytes_ok (vr_value r)) rs.
Proof.
  induction 1 as [|t v e rs V S IH]; intros B; [constructor|].
  apply bytes_ok_cons in B as [_ B]. apply bytes_ok_cons in B as [_ B]. apply bytes_ok_app in B as [Bv Be]. constructor; auto.
Qed.

Lemma step_gen1_np cm f r : step_gen1 cm f r <> Panic.
Proof.
  unfold step_gen1. destruct (vr_type r); try discriminate;
    (apply bind_np; [first [apply overview_np|apply activities_np|apply raw_signed_np]|discriminate]).
Qed.

Lemma fold_np {A B} (f : A -> B -> res A) l : (forall a b, f a b <> Panic) -> forall a, fold_res f a l <> Panic.
Proof. intros H. induction l as [|b l IH]; intros a; cbn [fold_res]; [discriminate|]. apply bind_np; auto. Qed.

Lemma step_gen2_np v2 f r : arrays_sized (vr_type r) = 0%nat -> step_gen2 v2 f r <> Panic.
Proof. unfold step_gen2. destruct r as [tag t v]. cbn [vr_type]. destruct t, v2; cbn; discriminate. Qed.

(** A card download transfer makes every parser fail. *)
Lemma card_gen1 cm rs : forall f, ~ no_card rs -> exists x, fold_res (step_gen1 cm) f rs = Err x.
Proof.
  induction rs as [|r rs IH]; intros f N; [destruct N; constructor|]. cbn [fold_res].
  destruct (step_gen1 cm f r) as [g|x|] eqn:E; cbn [bind]; [|eauto|now apply step_gen1_np in E].
  apply IH. intros M. apply N. constructor; auto. intros C. unfold step_gen1 in E. rewrite C in E. discriminate.
Qed.

Lemma card_gen2 v2 rs : forall f, (forall r, In r rs -> forall g, step_gen2 v2 g r <> Panic) -> ~ no_card rs ->
  exists x, fold_res (step_gen2 v2) f rs = Err x.
Proof.
  induction rs as [|r rs IH]; intros f P N; [destruct N; constructor|]. cbn [fold_res].
  destruct (step_gen2 v2 f r) as [g|x|] eqn:E; cbn [bind]; [|eauto|now apply P in E; [|now left]].
  apply IH; [intros q Q; apply P; now right|]. intros M. apply N. constructor; auto. intros C. unfold step_gen2 in E. rewrite C in E.
  destruct v2; discriminate.
Qed.

(** Any value the splitter produced can be walked without a crash. *)
Lemma step_gen2_safe v2 t v e tag f : value_of t v e -> bytes_ok v -> step_gen2 v2 f (mkVR tag t v) <> Panic.
Proof.
  intros V B. unfold value_of in V.
  assert (G : (arrays_sized t > 0)%nat -> unmarshal_gen2 t v <> Panic).
  { intros P. assert (FL : fills (repeat array (arrays_sized t)) 0 v) by (destruct t; cbn in P; try lia; exact V).
    pose proof (gen2_value t v FL B) as H. destruct (_ =? _)%nat; [rewrite H; discriminate|destruct H as [x ->]; discriminate]. }
  unfold step_gen2. cbn [vr_type vr_value]. destruct t, v2; cbn [role_gen2]; try discriminate;
    (apply bind_np; [apply G; cbn; lia|discriminate]).
Qed.

Lemma splits_safe d rs : splits d rs -> bytes_ok d -> forall r, In r rs -> forall v2 g, step_gen2 v2 g r <> Panic.
Proof.
  induction 1 as [|t v e rs V S IH]; intros B r I v2 g; [destruct I|].
  apply bytes_ok_cons in B as [_ B]. apply bytes_ok_cons in B as [_ B]. apply bytes_ok_app in B as [Bv Be].
  destruct I as [<-|I]; [eapply step_gen2_safe; eauto|eauto].
Qed.

Lemma no_card_dec rs : no_card rs \/ ~ no_card rs.
Proof.
  destruct (Forall_dec (fun r => vr_type r <> CARD_DOWNLOAD)) with (l := rs) as [H|H]; auto.
  intros r. destruct (vr_type r); auto; left; discriminate.
Qed.

Lemma fold_gen2_safe v2 rs : (forall r, In r rs -> forall g, step_gen2 v2 g r <> Panic) -> forall f, fold_res (step_gen2 v2) f rs <> Panic.
Proof.
  induction rs as [|r rs IH]; intros P f; cbn [fold_res]; [discriminate|].
  apply bind_np; [apply P; now left|]. intros g. apply IH. intros q Q. apply P. now right.
Qed.

(** The five kinds of first-generation transfers are all accepted one by one. *)
Definition parses1 (cm : Z -> Z -> Z) (t : transfer) : Prop :=
  match fst t with
  | 0x01 => is_ok (unmarshal_overview_gen1 cm (snd t)) = true
  | 0x02 => is_ok (unmarshal_activities_gen1 cm (snd t)) = true
  | _ => In (fst t) [0x03; 0x04; 0x05]
  end.

Lemma fills_length l : forall tail v, fills l tail v -> (tail <= length v)%nat.
Proof.
  induction l as [|st l IH]; intros tail v F; inversion F; subst; auto. rewrite !app_length.
  match goal with H : fills l tail ?e |- _ => apply IH in H end. lia.
Qed.

Lemma fold_gen1_ok cm rs : Forall well_formed (map tr_of rs) ->
  forall f, (exists f', fold_res (step_gen1 cm) f rs = Ok f') <-> Forall (parses1 cm) (map tr_of rs).
Proof.
  induction rs as [|r rs IH]; intros W f; cbn [fold_res map] in *; [split; [constructor|eauto]|].
  apply Forall_cons_iff in W as [W1 W]. rewrite Forall_cons_iff. destruct r as [tag t v].
  assert (S : (exists g, step_gen1 cm f (mkVR tag t v) = Ok g) <-> parses1 cm (tr_of (mkVR tag t v))).
  { unfold step_gen1, parses1, tr_of. cbn [vr_type vr_value fst snd].
    assert (R : In (trep_of t) [0x03; 0x04; 0x05] -> is_ok (unmarshal_raw_signed v) = true).
    { intros I. destruct W1 as (l & tail & J & F). cbn [tr_of fst snd vr_type vr_value] in *.
      apply layout_in in J. assert (tail = 128)%nat by (destruct t; cbn in I; try (exfalso; lia); cbn in J; injection J as <- <-; reflexivity).
      subst tail. apply fills_length in F. unfold unmarshal_raw_signed.
      apply Nat.ltb_ge in F. rewrite F. reflexivity. }
    destruct t; cbn [trep_of]; try (split; [intros [g X]; discriminate X|cbn; intros X; exfalso; lia]).
    - change (trep_of OVERVIEW_GEN1) with 1. destruct (unmarshal_overview_gen1 cm v); cbn [bind is_ok]; split; try discriminate; eauto; intros [g X]; discriminate.
    - change (trep_of ACTIVITIES_GEN1) with 2. destruct (unmarshal_activities_gen1 cm v); cbn [bind is_ok]; split; try discriminate; eauto; intros [g X]; discriminate.
    - split; [intros _; cbn; tauto|]. intros _. destruct (unmarshal_raw_signed v); [eexists; reflexivity|specialize (R ltac:(cbn; tauto)); discriminate..].
    - split; [intros _; cbn; tauto|]. intros _. destruct (unmarshal_raw_signed v); [eexists; reflexivity|specialize (R ltac:(cbn; tauto)); discriminate..].
    - split; [intros _; cbn; tauto|]. intros _. destruct (unmarshal_raw_signed v); [eexists; reflexivity|specialize (R ltac:(cbn; tauto)); discriminate..]. }
  split.
  - intros [f' E]. apply bind_ok in E as (g & G & E). split; [apply S; eauto|]. apply (IH W g). eauto.
  - intros [A B]. apply S in A as [g ->]. cbn [bind]. now apply IH.
Qed.

Lemma by_raw {X} (un : bytes -> res X) (raw : X -> bytes) : forall l l', map raw l = map raw l' ->
  Forall (fun x => un (raw x) = Ok x) l -> Forall (fun x => un (raw x) = Ok x) l' -> l = l'.
Proof.
  induction l as [|a l IH]; intros [|b l'] E F G; try discriminate; auto. cbn [map] in E. injection E as E1 E2.
  apply Forall_cons_iff in F as [F1 F], G as [G1 G]. f_equal; auto. rewrite E1, G1 in F1. now apply Ok_inj in F1.
Qed.

Lemma built1_unique cm ts f g : built1 cm ts f -> built1 cm ts g -> f = g.
Proof.
  intros (_ & A & B & C & D & E & P1 & P2 & P3) (_ & A' & B' & C' & D' & E' & Q1 & Q2 & Q3).
  rewrite !Forall_app in P3, Q3. destruct P3 as (P3 & P4 & P5), Q3 as (Q3 & Q4 & Q5).
  rewrite <- A' in A. rewrite <- B' in B. rewrite <- C' in C. rewrite <- D' in D. rewrite <- E' in E.
  apply (by_raw (unmarshal_overview_gen1 cm)) in A; auto. apply (by_raw (unmarshal_activities_gen1 cm)) in B; auto.
  apply (by_raw unmarshal_raw_signed) in C; auto. apply (by_raw unmarshal_raw_signed) in D; auto. apply (by_raw unmarshal_raw_signed) in E; auto.
  destruct f as [o1 a1 e1 s1 t1], g as [o2 a2 e2 s2 t2]. cbn in *. subst.
  destruct o1, o2; cbn in A; try discriminate; [injection A as ->|]; reflexivity.
Qed.

(** What becomes of a download. *)
Definition message (cm : Z -> Z -> Z) (ts : list transfer) (f : file) : Prop :=
  (exists g, f = vu (VuGen1 g) /\ Forall (parses1 cm) ts /\ built1 cm ts g) \/
  (f = vu (VuGen2V1 (gen2_message 0x21 ts)) /\ Forall (fun t => In (fst t) [0x21; 0x24]) ts) \/
  (f = vu (VuGen2V2 (gen2_message 0x31 ts)) /\ Forall (fun t => In (fst t) [0x00; 0x31; 0x24]) ts /\
   Exists (fun t => In (fst t) [0x00; 0x31]) ts).

Lemma generation_trep t : (transfer_generation t =? GENERATION_1) = existsb (Z.eqb (trep_of t)) [1; 2; 3; 4; 5] /\
  ((transfer_generation t =? GENERATION_2) = true <-> t <> CARD_DOWNLOAD /\ existsb (Z.eqb (trep_of t)) [1; 2; 3; 4; 5] = false).
Proof. destruct t; split; try reflexivity; cbn; split; try discriminate; try tauto; intros; try split; auto; try discriminate; destruct H as [H1 H2]; try discriminate; now destruct H1. Qed.

Lemma v2_transfers rs : has_gen2_v2_transfers rs = true <->
  Exists (fun t => In (fst t) [0x00; 0x31; 0x32; 0x33; 0x35]) (map tr_of rs).
Proof.
  unfold has_gen2_v2_transfers. rewrite existsb_exists, Exists_exists. split.
  - intros (r & I & E). exists (tr_of r). split; [now apply in_map|]. unfold tr_of. cbn [fst]. destruct (vr_type r); try discriminate; cbn; tauto.
  - intros (t & I & E). apply in_map_iff in I as (r & <- & I). exists r. split; auto. unfold tr_of in E. cbn [fst] in E.
    destruct (vr_type r); cbn in E; auto; lia.
Qed.

Lemma parses1_trep cm t : parses1 cm t -> In (fst t) [0x01; 0x02; 0x03; 0x04; 0x05].
Proof.
  unfold parses1. intros H. destruct (Z.eq_dec (fst t) 1) as [->|N1]; [now left|]. destruct (Z.eq_dec (fst t) 2) as [->|N2]; [right; now left|].
  right. right. destruct (fst t) as [|[[]|[]|]|]; try exact H; congruence.
Qed.

Theorem vu_spec cm d : bytes_ok d -> firstn 1 d = [0x76] ->
  (unmarshal_file cm d = Panic <-> crash d) /\
  forall f, unmarshal_file cm d = Ok f <->
    exists ts, d = download ts /\ Forall well_formed ts /\ message cm ts f.
Proof.
  intros B H. destruct d as [|a d]; [discriminate|]. injection H as ->.
  destruct d as [|b d].
  { split; [split; [discriminate|]|].
    - intros C. inversion C.
    - intros f. split; [discriminate|]. intros (ts & E & _). destruct ts as [|[k v] ts]; discriminate E. }
  set (D := 0x76 :: b :: d) in *.
  assert (U : unmarshal_file cm D = (let* v := unmarshal_vu cm D in Ok (vu v))) by reflexivity.
  rewrite U. clear U. unfold unmarshal_vu.
  destruct (split_spec D B) as [SO SP].
  destruct (unmarshal_raw_vu D) as [rs|x|] eqn:R.
  2: { split; [split; [discriminate|intros C; apply SP in C; discriminate]|]. intros f. split; [discriminate|].
       intros (ts & E & W & _). apply download_splits in W as (rs & S & _). rewrite <- E in S. apply SO in S. discriminate. }
  2: { split; [split; [intros _; now apply SP|reflexivity]|]. intros f. split; [discriminate|].
       intros (ts & E & W & _). apply download_splits in W as (rs & S & _). rewrite <- E in S. apply SO in S. discriminate. }
  pose proof (proj1 (SO rs) eq_refl) as S. cbn [bind].
  destruct rs as [|r rs]; [inversion S|].
  assert (NC : ~ crash D) by (intros C; apply SP in C; discriminate).
  pose proof (splits_safe D (r :: rs) S B) as SAFE. pose proof (splits_bytes D (r :: rs) S B) as BV.
  destruct (generation_trep (vr_type r)) as [G1 G2].
  assert (UNIQ : forall ts, D = download ts -> Forall well_formed ts -> ts = map tr_of (r :: rs) /\ no_card (r :: rs)).
  { intros ts E W. apply download_splits in W as (rs' & S' & <- & N). rewrite <- E in S'.
    rewrite (splits_inj D rs' (r :: rs) S' S) in *. auto. }
  destruct (no_card_dec (r :: rs)) as [N|N].
  2: { (* a card download: never accepted, never a crash *)
    assert (X : exists x, (if transfer_generation (vr_type r) =? GENERATION_1
       then let* f := fold_res (step_gen1 cm) empty_gen1 (r :: rs) in Ok (VuGen1 f)
       else if transfer_generation (vr_type r) =? GENERATION_2
        then if has_gen2_v2_transfers (r :: rs)
         then let* f := fold_res (step_gen2 true) empty_gen2 (r :: rs) in Ok (VuGen2V2 f)
         else let* f := fold_res (step_gen2 false) empty_gen2 (r :: rs) in Ok (VuGen2V1 f)
        else fail) = Err x).
    { destruct (card_gen1 cm (r :: rs) empty_gen1 N) as [x1 E1].
      destruct (card_gen2 true (r :: rs) empty_gen2 (fun q Q => SAFE q Q true) N) as [x2 E2].
      destruct (card_gen2 false (r :: rs) empty_gen2 (fun q Q => SAFE q Q false) N) as [x3 E3].
      rewrite E1, E2, E3. destruct (_ =? _); [eexists; reflexivity|]. destruct (_ =? _); [|eexists; reflexivity].
      destruct (has_gen2_v2_transfers _); eexists; reflexivity. }
    destruct X as [x ->]. cbn [bind]. split; [split; [discriminate|contradiction]|].
    intros f. split; [discriminate|]. intros (ts & E & W & _). destruct (UNIQ ts E W). contradiction. }
  destruct (splits_download D (r :: rs) S N) as [DE W].
  assert (INTRO : forall f, message cm (map tr_of (r :: rs)) f <-> exists ts, D = download ts /\ Forall well_formed ts /\ message cm ts f).
  { intros f. split; [intros M; exists (map tr_of (r :: rs)); auto|]. intros (ts & E & W' & M). destruct (UNIQ ts E W') as [-> _]. auto. }
  rewrite G1. destruct (existsb (Z.eqb (trep_of (vr_type r))) [1; 2; 3; 4; 5]) eqn:K1.
  - split.
    + split; [|contradiction]. intros E. exfalso.
      assert (P : fold_res (step_gen1 cm) empty_gen1 (r :: rs) <> Panic) by (apply fold_np; apply step_gen1_np).
      destruct (fold_res (step_gen1 cm) empty_gen1 (r :: rs)); try discriminate. now apply P.
    + intros f. rewrite <- INTRO. split.
      * intros E. apply bind_ok in E as (v & E & Q). apply bind_ok in E as (g & E & Q'). apply Ok_inj in Q, Q'. subst.
        left. exists g. split; auto. split; [apply (fold_gen1_ok cm (r :: rs) W empty_gen1); eauto|].
        exact (fold_built1 cm (r :: rs) [] empty_gen1 g (empty_built1 cm) E).
      * intros [(g & -> & P & BU)|[[-> F]|(-> & F & _)]].
        -- apply (fold_gen1_ok cm (r :: rs) W empty_gen1) in P as [g' E].
           pose proof (fold_built1 cm (r :: rs) [] empty_gen1 g' (empty_built1 cm) E) as BU'. cbn [List.app] in BU'.
           rewrite (built1_unique _ _ _ _ BU BU'). now rewrite E.
        -- exfalso. apply Forall_cons_iff in F as [F _]. apply existsb_in in K1. cbn in F, K1. lia.
        -- exfalso. apply Forall_cons_iff in F as [F _]. apply existsb_in in K1. cbn in F, K1. lia.
  - assert (NC1 : vr_type r <> CARD_DOWNLOAD) by now apply Forall_cons_iff in N as [N _].
    rewrite (proj2 G2) by auto.
    assert (NG1 : ~ Forall (parses1 cm) (map tr_of (r :: rs))).
    { intros P. apply Forall_cons_iff in P as [P _]. apply parses1_trep in P. apply existsb_in in P. unfold tr_of in P. cbn [fst] in P. congruence. }
    pose proof (v2_transfers (r :: rs)) as V2.
    destruct (has_gen2_v2_transfers (r :: rs)).
    + destruct (fold_gen2 true (r :: rs) [] W BV) as [NP H]. change (gen2_message (overview_trep true) []) with empty_gen2 in *.
      split.
      * split; [|contradiction]. intros E. exfalso. destruct (fold_res (step_gen2 true) empty_gen2 (r :: rs)); try discriminate. now apply NP.
      * intros f. rewrite <- INTRO. split.
        -- intros E. apply bind_ok in E as (v & E & Q). apply bind_ok in E as (g & E & Q'). apply Ok_inj in Q, Q'. subst.
           apply H in E as [F ->]. right. right. split; [reflexivity|]. split; [exact F|].
           apply proj1 in V2. specialize (V2 eq_refl). rewrite Exists_exists in V2. rewrite Exists_exists. destruct V2 as (t & I & J).
           exists t. split; auto. rewrite Forall_forall in F. specialize (F t I). cbn in F, J |- *. lia.
        -- intros [(g & -> & P & BU)|[[-> F]|(-> & F & X)]].
           ++ exfalso. apply NG1. auto.
           ++ exfalso. apply proj1 in V2. specialize (V2 eq_refl). rewrite Exists_exists in V2. destruct V2 as (t & I & J).
              rewrite Forall_forall in F. specialize (F t I). cbn in F, J. lia.
           ++ rewrite (proj2 (H _) (conj F eq_refl)). reflexivity.
    + destruct (fold_gen2 false (r :: rs) [] W BV) as [NP H]. change (gen2_message (overview_trep false) []) with empty_gen2 in *.
      split.
      * split; [|contradiction]. intros E. exfalso. destruct (fold_res (step_gen2 false) empty_gen2 (r :: rs)); try discriminate. now apply NP.
      * intros f. rewrite <- INTRO. split.
        -- intros E. apply bind_ok in E as (v & E & Q). apply bind_ok in E as (g & E & Q'). apply Ok_inj in Q, Q'. subst.
           apply H in E as [F ->]. right. left. split; [reflexivity|exact F].
        -- intros [(g & -> & P & BU)|[[-> F]|(-> & F & X)]].
           ++ exfalso. apply NG1. auto.
           ++ rewrite (proj2 (H _) (conj F eq_refl)). reflexivity.
           ++ exfalso. apply proj2 in V2. discriminate V2. eapply Exists_impl; [|exact X]. intros t J. cbn in J |- *. lia.
Qed.

Lemma vu_download cm d v : bytes_ok d -> unmarshal_file cm d = Ok (vu v) ->
  firstn 1 d = [0x76] /\ exists ts, d = download ts /\ Forall well_formed ts /\ message cm ts (vu v).
Proof.
  intros B E. destruct (C01_dispatch cm d B) as (_ & H & _). destruct (H _ E) as [[H1 _] _]. specialize (H1 eq_refl).
  split; auto. now apply (vu_spec cm d B H1).
Qed.

Lemma download_first k v ts : firstn 1 (download ((k, v) :: ts)) = [0x76].
Proof. reflexivity. Qed.

Lemma download_app ts us : download (ts ++ us) = download ts ++ download us.
Proof. unfold download. now rewrite map_app, concat_app. Qed.

Lemma download_inj ts us : Forall well_formed ts -> Forall well_formed us -> download ts = download us -> ts = us.
Proof.
  intros W V E. destruct (download_prefix ts W us [] V) as [x ->]; [now rewrite app_nil_r|].
  rewrite download_app in E. rewrite <- (app_nil_r (download us)) in E at 2. apply app_inv_head in E.
  destruct x as [|[k v] x]; [now rewrite app_nil_r|discriminate].
Qed.

(** * C06: vehicle unit dumps do not crash the parser *)

(** Exactly which do: those that end inside a transfer, before the place where the
    size computation expects the next counter or record array ([crash], [overrun]).
    Missing: those. *)
Theorem C06_no_panic_partial : forall cm d, bytes_ok d -> firstn 1 d = [0x76] ->
  (unmarshal_file cm d = Panic <-> crash d) /\
  (forall ts, Forall well_formed ts -> d = download ts -> unmarshal_file cm d <> Panic).
Proof.
  intros cm d B H. split; [now apply vu_spec|]. intros ts W E P. apply vu_spec in P; auto.
  apply (split_spec d B) in P. apply download_splits in W as (rs & S & _). rewrite <- E in S.
  apply (split_spec d B) in S. congruence.
Qed.
Print Assumptions C06_no_panic_partial.

Theorem C06_no_panic_refuted : forall cm, exists d, bytes_ok d /\ firstn 1 d = [0x76] /\ unmarshal_file cm d = Panic.
Proof.
  intros cm. exists [0x76; 0x01]. split; [apply bytes_okb_ok; reflexivity|]. split; [reflexivity|].
  apply vu_spec; [apply bytes_okb_ok; reflexivity|reflexivity|].
  apply (crash_here 0x01 [counted 491 1 98; counted 0 1 31] 128); [right; left; reflexivity|].
  apply over_skip. cbn. lia.
Qed.
Print Assumptions C06_no_panic_refuted.

(** Two empty record arrays. *)
Definition empty_array : bytes := [1; 0; 4; 0; 0].
Definition empty_arrays (n : nat) : bytes := concat (repeat empty_array n).

Lemma fills_arrays n : fills (repeat array n) 0 (empty_arrays n).
Proof.
  induction n as [|n IH]; cbn [repeat empty_arrays concat]; [now constructor|].
  change (empty_array ++ concat (repeat empty_array n)) with ([] ++ empty_array ++ [] ++ empty_arrays n).
  constructor; auto.
Qed.

Definition sample_download : list transfer := [(0x21, empty_arrays 11); (0x24, empty_arrays 2)].

Lemma sample_download_ok : Forall well_formed sample_download.
Proof.
  apply Forall_cons; [|apply Forall_cons; [|apply Forall_nil]].
  - exists (repeat array 11), 0%nat. split; [now repeat (try (left; reflexivity); right)|apply fills_arrays].
  - exists (repeat array 2), 0%nat. split; [now repeat (try (left; reflexivity); right)|apply fills_arrays].
Qed.

Example C06_example : bytes_ok (download sample_download) /\ firstn 1 (download sample_download) = [0x76] /\
  Forall well_formed sample_download.
Proof. split; [apply bytes_okb_ok; reflexivity|]. split; [reflexivity|]. exact sample_download_ok. Qed.

(** * C49: downloads are split without loss *)

(** The values of the transfers a message keeps, by TREP. *)
Definition kept (v : vu_file) : list (Z * list bytes) :=
  match v with
  | VuGen1 f => kept_gen1 f
  | VuGen2V1 f => [(0x21, opt_list (g2_overview f)); (0x22, g2_activities f); (0x23, g2_events f); (0x24, g2_speed f); (0x25, g2_technical f)]
  | VuGen2V2 f => [(0x31, opt_list (g2_overview f)); (0x32, g2_activities f); (0x33, g2_events f); (0x24, g2_speed f); (0x35, g2_technical f)]
  end.

Lemma values_none k ts l : Forall (fun t => In (fst t) l) ts -> ~ In k l -> values k ts = [].
Proof.
  intros F N. induction F as [|t ts I F IH]; [reflexivity|]. unfold values in *. cbn [filter].
  destruct (Z.eqb_spec (fst t) k) as [E|E]; [subst; contradiction|exact IH].
Qed.

Lemma last_one_opt {A} (l : list A) : opt_list (match last_one l with v :: _ => Some v | [] => None end) = last_one l.
Proof. unfold last_one. destruct (rev l); reflexivity. Qed.

Theorem C49_split_without_loss : forall cm d v, bytes_ok d -> unmarshal_file cm d = Ok (vu v) ->
  exists ts, d = download ts /\ Forall well_formed ts /\
    (* there is no other way to read it *)
    (forall us, Forall well_formed us -> d = download us -> us = ts) /\
    (* the message has the values of the transfers of each kind, of the overviews the last *)
    (forall k l, In (k, l) (kept v) ->
       l = if existsb (Z.eqb k) [0x01; 0x21; 0x31] then last_one (values k ts) else values k ts) /\
    (* and only the interface version has no place in it *)
    (forall k x, In (k, x) ts -> k = 0x00 \/ exists l, In (k, l) (kept v)).
Proof.
  intros cm d v B E. destruct (vu_download cm d v B E) as (_ & ts & D & W & M). exists ts. split; auto. split; auto.
  split; [intros us U Q; apply download_inj; congruence|].
  destruct M as [(g & M & P & (T & A1 & A2 & A3 & A4 & A5 & _))|[[M F]|(M & F & X)]]; injection M as ->; cbn [kept]; split.
  - intros k l I. unfold kept_gen1 in I. repeat destruct I as [I|I]; try injection I as <- <-; try destruct I; cbn [existsb Z.eqb Pos.eqb orb]; auto.
    rewrite <- A1. destruct (g1_overview g); reflexivity.
  - intros k x I. right. rewrite Forall_forall in T. specialize (T _ I). cbn [fst] in T. unfold kept_gen1.
    repeat destruct T as [<-|T]; try destruct T; eexists; repeat (try (left; reflexivity); right).
  - intros k l I. cbn [gen2_message g2_overview g2_activities g2_events g2_speed g2_technical] in I.
    repeat destruct I as [I|I]; try injection I as <- <-; try destruct I; cbn [existsb Z.eqb Pos.eqb orb]; auto.
    + apply last_one_opt.
    + symmetry. apply (values_none _ _ _ F). cbn. lia.
    + symmetry. apply (values_none _ _ _ F). cbn. lia.
    + symmetry. apply (values_none _ _ _ F). cbn. lia.
  - intros k x I. right. rewrite Forall_forall in F. specialize (F _ I) as K. cbn [fst] in K.
    repeat destruct K as [<-|K]; try destruct K; eexists; repeat (try (left; reflexivity); right).
  - intros k l I. cbn [gen2_message g2_overview g2_activities g2_events g2_speed g2_technical] in I.
    repeat destruct I as [I|I]; try injection I as <- <-; try destruct I; cbn [existsb Z.eqb Pos.eqb orb]; auto.
    + apply last_one_opt.
    + symmetry. apply (values_none _ _ _ F). cbn. lia.
    + symmetry. apply (values_none _ _ _ F). cbn. lia.
    + symmetry. apply (values_none _ _ _ F). cbn. lia.
  - intros k x I. rewrite Forall_forall in F. specialize (F _ I) as K. cbn [fst] in K.
    repeat destruct K as [<-|K]; [now left|right..]; try destruct K; eexists; repeat (try (left; reflexivity); right).
Qed.
Print Assumptions C49_split_without_loss.

Lemma sample_accepted : unmarshal_file no_charmap (download sample_download) =
  Ok (vu (VuGen2V1 (gen2_message 0x21 sample_download))).
Proof. vm_compute. reflexivity. Qed.

Example C49_example : bytes_ok (download sample_download) /\
  unmarshal_file no_charmap (download sample_download) = Ok (vu (VuGen2V1 (mkG2 (Some (empty_arrays 11)) [] [] [empty_arrays 2] []))).
Proof. split; [apply bytes_okb_ok; reflexivity|vm_compute; reflexivity]. Qed.

(** * C50: truncated downloads are not accepted *)

Theorem C50_truncated : forall cm d p q v w, bytes_ok d -> d = p ++ q ->
  unmarshal_file cm d = Ok (vu v) -> unmarshal_file cm p = Ok w ->
  exists ts us, p = download ts /\ q = download us /\ Forall well_formed (ts ++ us).
Proof.
  intros cm d p q v w B D E F. assert (Bp : bytes_ok p) by (subst d; now apply bytes_ok_app in B as [B _]).
  destruct (vu_download cm d v B E) as (H & ts & Q & W & _).
  assert (G : exists us, p = download us /\ Forall well_formed us).
  { destruct p as [|b p]; [exists []; split; [reflexivity|apply Forall_nil]|].
    assert (H' : firstn 1 (b :: p) = [0x76]) by now rewrite D in H.
    apply vu_spec in F as (us & R & V & _); auto. now exists us. }
  destruct G as (us & R & V). rewrite D, R in Q. symmetry in Q.
  destruct (download_prefix ts W us q V Q) as [xs ->]. exists us, xs. split; auto. split; auto.
  rewrite download_app in Q. now apply app_inv_head in Q.
Qed.
Print Assumptions C50_truncated.

Example C50_example : exists d p q v w, bytes_ok d /\ d = p ++ q /\ q <> [] /\
  unmarshal_file no_charmap d = Ok (vu v) /\ unmarshal_file no_charmap p = Ok (vu w).
Proof.
  exists (download sample_download), (download (firstn 1 sample_download)), (download (skipn 1 sample_download)).
  do 2 eexists. split; [apply bytes_okb_ok; reflexivity|]. split; [reflexivity|]. split; [discriminate|].
  split; vm_compute; reflexivity.
Qed.

(** * C51: second-generation downloads *)

(** Overviews, detailed speed and interface versions are accepted with every
    contents of their record arrays.  Missing: activities, events and faults,
    technical data, which are never accepted. *)
Theorem C51_second_generation_partial : forall cm ts, Forall well_formed ts -> bytes_ok (download ts) -> ts <> [] ->
  (Forall (fun t => In (fst t) [0x21; 0x24]) ts ->
     unmarshal_file cm (download ts) = Ok (vu (VuGen2V1 (gen2_message 0x21 ts)))) /\
  (Forall (fun t => In (fst t) [0x00; 0x31; 0x24]) ts -> Exists (fun t => fst t <> 0x24) ts ->
     unmarshal_file cm (download ts) = Ok (vu (VuGen2V2 (gen2_message 0x31 ts)))).
Proof.
  intros cm ts W B N. assert (H : firstn 1 (download ts) = [0x76]) by (destruct ts as [|[k v] ts]; [now destruct N|reflexivity]).
  split.
  - intros F. apply vu_spec; auto. exists ts. split; auto. split; auto. right. left. auto.
  - intros F X. apply vu_spec; auto. exists ts. split; auto. split; auto. right. right. split; auto. split; auto.
    rewrite Exists_exists in *. destruct X as (t & I & K). exists t. split; auto. rewrite Forall_forall in F. specialize (F t I). cbn in F |- *. lia.
Qed.
Print Assumptions C51_second_generation_partial.

Example C51_example : Forall well_formed sample_download /\ bytes_ok (download sample_download) /\ sample_download <> [] /\
  Forall (fun t => In (fst t) [0x21; 0x24]) sample_download.
Proof.
  split; [exact sample_download_ok|]. split; [apply bytes_okb_ok; reflexivity|]. split; [discriminate|].
  apply Forall_cons; [now left|]. apply Forall_cons; [right; now left|apply Forall_nil].
Qed.

(** No download with such a transfer is accepted, though well-formed ones exist. *)
Theorem C51_second_generation_refuted :
  (forall cm ts k v w, bytes_ok (download ts) -> Forall well_formed ts -> In (k, v) ts ->
     In k [0x22; 0x23; 0x25; 0x32; 0x33; 0x35] -> unmarshal_file cm (download ts) <> Ok w) /\
  (forall k, In k [0x22; 0x23; 0x25; 0x32; 0x33; 0x35] -> exists v, bytes_ok v /\ well_formed (k, v)).
Proof.
  split.
  - intros cm ts k v w B W I K E.
    assert (H : firstn 1 (download ts) = [0x76]) by (destruct ts as [|[k' v'] ts]; [destruct I|reflexivity]).
    apply vu_spec in E as (us & D & V & M); auto. apply download_inj in D; auto. subst us.
    destruct M as [(g & M & P & (T & _))|[[M F]|(M & F & X)]].
    + rewrite Forall_forall in T. specialize (T _ I). cbn in T, K. lia.
    + rewrite Forall_forall in F. specialize (F _ I). cbn in F, K. lia.
    + rewrite Forall_forall in F. specialize (F _ I). cbn in F, K. lia.
  - intros k K. repeat destruct K as [<-|K]; try destruct K.
    all: match goal with |- exists v, _ /\ well_formed (?k, v) =>
      let n := eval vm_compute in (match find (fun p => fst (fst p) =? k) layouts with Some (_, l, _) => length l | None => O end) in
      exists (empty_arrays n); split; [apply bytes_okb_ok; reflexivity|exists (repeat array n), 0%nat; split;
        [now repeat (try (left; reflexivity); right)|apply fills_arrays]] end.
Qed.
Print Assumptions C51_second_generation_refuted.

(** * C52: vehicle unit files round-trip *)

(** They are never written at all. *)
Theorem C52_round_trip_refuted :
  (forall cm d v, bytes_ok d -> unmarshal_file cm d = Ok (vu v) -> exists e, marshal_file (Some (vu v)) = Err e) /\
  exists d v, bytes_ok d /\ unmarshal_file no_charmap d = Ok (vu v).
Proof.
  split; [intros; eexists; reflexivity|]. exists (download sample_download). eexists.
  split; [apply bytes_okb_ok; reflexivity|exact sample_accepted].
Qed.
Print Assumptions C52_round_trip_refuted.

(** * C53: one generation *)

(** Accepted downloads consist of transfers of one kind; which message comes out
    follows from the first one and the presence of version 2 transfers. *)
Theorem C53_one_generation : forall cm d v, bytes_ok d -> unmarshal_file cm d = Ok (vu v) ->
  exists k x ts, d = download ((k, x) :: ts) /\ Forall well_formed ((k, x) :: ts) /\
  match v with
  | VuGen1 f => In k [0x01; 0x02; 0x03; 0x04; 0x05] /\ Forall (fun t => In (fst t) [0x01; 0x02; 0x03; 0x04; 0x05]) ts /\
      Forall (fun o => unmarshal_overview_gen1 cm (ov_raw o) = Ok o) (opt_list (g1_overview f)) /\
      Forall (fun a => unmarshal_activities_gen1 cm (ac_raw a) = Ok a) (g1_activities f) /\
      Forall (fun a => rs_signature a = skipn (length (rs_raw a) - 128) (rs_raw a)) (g1_events f ++ g1_speed f ++ g1_technical f)
  | VuGen2V1 _ => In k [0x21; 0x24] /\ Forall (fun t => In (fst t) [0x21; 0x24]) ts
  | VuGen2V2 _ => In k [0x00; 0x31; 0x24] /\ Forall (fun t => In (fst t) [0x00; 0x31; 0x24]) ts /\
      exists t, In t ((k, x) :: ts) /\ In (fst t) [0x00; 0x31]
  end.
Proof.
  intros cm d v B E. destruct (vu_download cm d v B E) as (H & ts & D & W & M).
  destruct ts as [|[k x] ts]; [subst d; discriminate H|]. exists k, x, ts. split; auto. split; auto.
  destruct M as [(g & M & P & (T & _ & _ & _ & _ & _ & P1 & P2 & P3))|[[M F]|(M & F & X)]]; injection M as ->.
  - apply Forall_cons_iff in T as [T1 T]. split; auto. split; auto. split; auto. split; auto.
    eapply Forall_impl; [|exact P3]. intros a A. unfold unmarshal_raw_signed in A. apply bind_ok in A as (? & _ & A). apply Ok_inj in A.
    rewrite <- A at 1. reflexivity.
  - now apply Forall_cons_iff in F.
  - apply Forall_cons_iff in F as [F1 F]. split; auto. split; auto. rewrite Exists_exists in X. exact X.
Qed.
Print Assumptions C53_one_generation.

Example C53_example : exists d f, bytes_ok d /\ unmarshal_file no_charmap d = Ok (vu (VuGen2V2 f)).
Proof.
  exists (download [(0x24, empty_arrays 2); (0x00, [1; 1]); (0x31, empty_arrays 11)]). eexists.
  split; [apply bytes_okb_ok; reflexivity|vm_compute; reflexivity].
Qed.
