(** The anonymisers on the heap compute those on values, change nothing of what was there,
    and what of it they reach. *)

From Coq Require Import String.
From Verif Require Import Base DDScalar DDString DDRecord CardRecords CardIdent Anonymize AnonHeap P_AnonHeap.
Local Open Scope list_scope.

Lemma every_nil {A} : every (@nil (option A)) = Some []. Proof. reflexivity. Qed.

(** Opens [every (map (read f h) rs) = Some ts] as far as [ts] is known. *)
Ltac spread E :=
  match type of E with
  | every (map _ ?rs) = Some [] => destruct rs as [|? ?]; cbn [map] in E;
      [clear E|exfalso; apply every_cons in E as (? & ? & _ & _ & E); discriminate E]
  | every (map _ ?rs) = Some (_ :: _) => destruct rs as [|? ?]; cbn [map] in E; [discriminate E|];
      let E1 := fresh "R" in apply every_cons in E as (? & ? & E1 & E & ?Q); injection Q as ? ?; subst; spread E
  end.

Ltac opened E :=
  match type of E with
  | obind ?o _ = Some _ => let Q := fresh "O" in destruct o eqn:Q; [cbn [obind] in E; opened E|discriminate E]
  | Some _ = Some _ => injection E as ?; subst
  | _ => idtac
  end.

Ltac joined :=
  repeat match goal with
  | R : read ?f ?h ?r = Some ?o, O : opt ?x ?o = Some ?v |- _ =>
      let J := fresh "J" in assert (J : obind (read f h r) (opt x) = Some v) by (rewrite R; exact O); clear R O
  end.

Ltac split_leaf E :=
  match type of E with
  | obind (read _ ?h ?t) _ = Some _ => destruct (read _ h t) eqn:?R; [cbn [obind] in E|discriminate E]
  end.

(** ** Places *)

Definition place_data (v : place) : payload :=
  DPlace (pl_raw v) (pl_entry v) (pl_entry_unrecognized v) (pl_country v) (pl_country_unrecognized v) (pl_region v) (pl_odometer v).

Lemma place_iff h r v : place_at h r = Some v <->
  exists a t, r = Some a /\ nth_error h a = Some (mkObj (place_data v) [t]) /\ leaf DTime h t (pl_time v).
Proof.
  unfold place_at, value. split.
  - destruct r as [a|]; [|discriminate]. rewrite read_some. destruct (nth_error h a) as [[d rs]|] eqn:Ea; [|discriminate].
    cbn [refs data]. intros E. destruct (every (map (read 2 h) rs)) as [ts|] eqn:Et; [|discriminate E]. cbn [option_map obind some] in E. destruct d; try discriminate E. destruct ts as [|o [|? ?]]; try discriminate E. cbn [place_of] in E.
    spread Et. opened E. joined. exists a, r. split; [reflexivity|]. split; [exact Ea|]. now apply (leaf_iff DTime time_of time_is 1).
  - intros (a & t & -> & Ea & L). rewrite read_some. rewrite Ea. cbn [refs data map].
    apply (leaf_iff DTime time_of time_is 1) in L. split_leaf L. cbn [every option_map obind some place_of place_data].
    rewrite L. cbn [obind]. now destruct v.
Qed.

Lemma place_foot h a d t o : nth_error h a = Some (mkObj d [t]) -> leaf DTime h t o -> foot 3 h (Some a) = a :: ol t.
Proof. intros E L. rewrite foot_some. rewrite E. cbn [refs flat_map]. rewrite (leaf_foot DTime 1 h t o L). now rewrite app_nil_r. Qed.

(** Of a record, the address and the object below do not change with a write to another
    record. *)
Lemma leaf_store {X} (mk : X -> payload) h a d rs o t x : nth_error h a = Some (mkObj d rs) ->
  (forall y, d <> mk y) -> leaf mk h t x -> leaf mk (store (Some a) o h) t x.
Proof.
  intros Ea N L. destruct t as [c|], x as [x|]; cbn [leaf] in *; auto.
  rewrite nth_store_neq; [exact L|apply nth_error_Some; congruence|]. intros <-. rewrite Ea in L. injection L as L _. exact (N x L).
Qed.

Lemma store_changes f m a o h : (a < length h)%nat -> (m <= a)%nat -> changes f m [Some a] h (store (Some a) o h).
Proof.
  intros L M. split; [rewrite store_length; [lia|]; intros b Q; injection Q as <-; exact L|].
  intros b Lb C. apply nth_store_neq; [exact L|]. intros <-. destruct C as [C|C]; [lia|].
  apply (C (Some a) (or_introl eq_refl)). apply foot_head.
Qed.

Lemma changes_refl f m rs h : changes f m rs h h.
Proof. split; [lia|auto]. Qed.

Lemma renew_place_spec m r v h : place_at h r = Some v -> (forall a, r = Some a -> (m <= a)%nat) ->
  place_at (renew_place r h) r = Some (regenerate append_place set_place_raw v) /\
  changes 3 m [r] h (renew_place r h) /\ foot 3 (renew_place r h) r = foot 3 h r /\
  length (renew_place r h) = length h /\ (forall b, r <> Some b -> nth_error (renew_place r h) b = nth_error h b).
Proof.
  intros P M. unfold renew_place, renew_at. rewrite P. apply place_iff in P as (a & t & -> & Ea & L). cbn [fetch]. rewrite Ea.
  specialize (M a eq_refl). assert (La : (a < length h)%nat) by (apply nth_error_Some; congruence). unfold regenerate.
  assert (P : place_at h (Some a) = Some v) by (apply place_iff; eauto).
  destruct (append_place v) as [b|e|]; [|split; [exact P|]; split; [apply changes_refl|auto] ..].
  cbn [data refs place_data set_raw]. set (o := mkObj _ _).
  assert (L' : leaf DTime (store (Some a) o h) t (pl_time v)) by (eapply leaf_store; [exact Ea|discriminate|exact L]).
  split.
  - apply place_iff. exists a, t. split; [reflexivity|]. split; [|exact L']. now apply nth_store_eq.
  - split; [now apply store_changes|]. split.
    { rewrite (place_foot h a _ t _ Ea L). apply place_foot with (2 := L') (d := data o). now apply nth_store_eq. }
    split; [apply store_length; intros c Q; injection Q as <-; exact La|].
    intros c N. apply nth_store_neq; [exact La|]. congruence.
Qed.

Lemma renew_last {A} (at_ : heap -> ref -> option A) ap set H o :
  exists o', renew_at at_ ap set (Some (length H)) (H ++ [o]) = H ++ [o'].
Proof.
  unfold renew_at. destruct (at_ _ _) as [x|]; [|eauto]. cbn [fetch].
  rewrite nth_error_app2, Nat.sub_diag by lia. cbn [nth_error]. destruct (ap x); eauto. rewrite store_last. eauto.
Qed.

Lemma nth_last (H : heap) o e : nth_error (H ++ o :: e) (length H) = Some o.
Proof. rewrite nth_error_app2, Nat.sub_diag by lia. reflexivity. Qed.

Lemma leaf_old {X} (mk : X -> payload) h t o : leaf mk h t o -> forall b, In b (ol t) -> (b < length h)%nat.
Proof.
  destruct t as [c|], o as [x|]; cbn [leaf ol]; try contradiction; intros E b I; destruct I as [<-|[]]. apply nth_error_Some. congruence.
Qed.

Lemma old_all n l : (forall b, In b l -> (b < n)%nat) -> filter (old n) l = l.
Proof.
  intros H. induction l as [|b l IH]; [reflexivity|]. cbn [filter]. unfold old at 1.
  rewrite (proj2 (Nat.ltb_lt b n)) by (apply H; now left). f_equal. apply IH. intros c I. apply H. now right.
Qed.

Lemma old_none n l : (forall b, In b l -> (n <= b)%nat) -> filter (old n) l = [].
Proof.
  intros H. induction l as [|b l IH]; [reflexivity|]. cbn [filter]. unfold old at 1.
  rewrite (proj2 (Nat.ltb_ge b n)) by (apply H; now left). apply IH. intros c I. apply H. now right.
Qed.

Lemma old_new n b l : (n <= b)%nat -> filter (old n) (b :: l) = filter (old n) l.
Proof. intros L. cbn [filter]. unfold old at 1. now rewrite (proj2 (Nat.ltb_ge b n)). Qed.

(** The time of a place *)
Definition time_ref (h : heap) (r : ref) : list nat :=
  match fetch h r with Some (mkObj _ [t]) => ol t | _ => [] end.

Lemma anonymize_place_step h0 (i : Z) r v e : place_at h0 r = Some v ->
  exists e', snd (anonymize_place_h r (h0 ++ e)) = (h0 ++ e) ++ e' /\
    let r' := fst (anonymize_place_h r (h0 ++ e)) in
    place_at ((h0 ++ e) ++ e') r' = Some (anonymize_place v) /\
    filter (old (length h0)) (foot 3 ((h0 ++ e) ++ e') r') = time_ref h0 r /\
    (forall b, In b (foot 3 ((h0 ++ e) ++ e') r') -> (b < length h0)%nat \/ (length (h0 ++ e) <= b)%nat) /\
    (forall a, r' = Some a -> (length h0 <= a)%nat).
Proof.
  intros P. apply place_iff in P as (a & t & -> & Ea & L).
  assert (La : (a < length h0)%nat) by (apply nth_error_Some; congruence).
  unfold anonymize_place_h. cbn [fetch]. rewrite (nth_new h0 e a La), Ea. cbn [new place_data]. set (o := mkObj _ [t]).
  set (H := h0 ++ e). destruct (renew_last place_at append_place set_raw H o) as (o' & Eo). fold renew_place in Eo. cbn [fst snd].
  assert (LH : leaf DTime (H ++ [o]) t (pl_time v)) by (apply leaf_grow, leaf_grow; exact L).
  set (w := mkPlace [] (pl_time v) (pl_entry v) (pl_entry_unrecognized v) FINLAND None [1] (Z.quot (pl_odometer v) 100 * 100)).
  assert (Pw : place_at (H ++ [o]) (Some (length H)) = Some w).
  { apply place_iff. exists (length H), t. split; [reflexivity|]. split; [apply nth_last|exact LH]. }
  destruct (renew_place_spec 0 _ w (H ++ [o]) Pw) as (Pn & _ & Ft & _); [intros; lia|].
  rewrite Eo in *. exists [o']. split; [reflexivity|]. split; [exact Pn|].
  rewrite Ft, (place_foot _ _ _ t _ (nth_last H o []) LH).
  assert (Lt : forall b, In b (ol t) -> (b < length h0)%nat) by now apply (leaf_old DTime h0 t (pl_time v)).
  split.
  - rewrite old_new; [|unfold H; rewrite app_length; lia]. rewrite (old_all (length h0) (ol t) Lt).
    unfold time_ref. cbn [fetch]. now rewrite Ea.
  - split; [intros b [<-|I]; [now right|left; now apply Lt]|]. intros c Q. injection Q as <-. unfold H. rewrite app_length. lia.
Qed.

(** [n] is the first new address. *)
Definition mine_place (n : nat) (h : heap) (r : ref) (v : place) : Prop :=
  place_at h r = Some v /\ forall a, r = Some a -> (n <= a)%nat.

Definition new_place (n : nat) (h : heap) (r : ref) (v : place) : Prop :=
  place_at h r = Some v /\ forall b, In b (foot 3 h r) -> (n <= b)%nat.

Lemma new_is_mine n h r v : new_place n h r v -> mine_place n h r v.
Proof. intros [P F]. split; [exact P|]. intros a ->. apply F. apply foot_head. Qed.

Lemma mine_place_local n : local 3 (mine_place n).
Proof. intros h h' r x F [P M]. split; [|exact M]. unfold place_at in *. now rewrite (value_frame place_of 3 h h' r F). Qed.

Lemma mine_place_within n : within 3 (mine_place n).
Proof. intros h r x [P _]. now apply value_inside with (1 := P). Qed.

Lemma new_place_local n : local 3 (new_place n).
Proof.
  intros h h' r x F [P M]. split; [unfold place_at in *; now rewrite (value_frame place_of 3 h h' r F)|].
  now rewrite (proj2 (frame 3 h h' r F)).
Qed.

Lemma new_place_within n : within 3 (new_place n).
Proof. intros h r x [P _]. now apply value_inside with (1 := P). Qed.

Lemma stamp_ref_spec i t h o : leaf DTime h t o -> exists e t', stamp_ref i t h = (t', h ++ e) /\
  leaf DTime (h ++ e) t' (stamp i o) /\ (forall b, In b (ol t') -> (length h <= b)%nat).
Proof.
  intros L. unfold stamp_ref, stamp, new. destruct t as [c|], o as [x|]; try contradiction.
  - do 2 eexists. split; [reflexivity|]. split; [apply leaf_new|]. intros b [<-|[]]. lia.
  - destruct (i =? 0).
    + do 2 eexists. split; [reflexivity|]. split; [apply leaf_new|]. intros b [<-|[]]. lia.
    + exists [], None. split; [now rewrite app_nil_r|]. split; [exact I|]. intros b [].
Qed.

Lemma stamp_place_step n i r v h : mine_place n h r v ->
  new_place n (stamp_place_h i r h) r (stamp_place i v) /\ changes 3 n [r] h (stamp_place_h i r h) /\
  (forall b, In b (foot 3 (stamp_place_h i r h) r) -> In b (foot 3 h r) \/ (length h <= b)%nat).
Proof.
  intros [P M]. apply place_iff in P as (a & t & -> & Ea & L). specialize (M a eq_refl).
  assert (La : (a < length h)%nat) by (apply nth_error_Some; congruence).
  unfold stamp_place_h. cbn [fetch]. rewrite Ea. destruct (stamp_ref_spec i t h _ L) as (e & t' & -> & L' & N').
  set (o := mkObj (place_data v) [t']).
  assert (La' : (a < length (h ++ e))%nat) by (rewrite app_length; lia).
  assert (Ea' : nth_error (h ++ e) a = Some (mkObj (place_data v) [t])) by now rewrite nth_new.
  assert (L2 : leaf DTime (store (Some a) o (h ++ e)) t' (stamp i (pl_time v))) by (eapply leaf_store; [exact Ea'|discriminate|exact L']).
  assert (Eo : nth_error (store (Some a) o (h ++ e)) a = Some o) by now apply nth_store_eq.
  assert (Ft : foot 3 (store (Some a) o (h ++ e)) (Some a) = a :: ol t') by exact (place_foot _ _ _ _ _ Eo L2).
  split; [split|split].
  - apply place_iff. exists a, t'. split; [reflexivity|]. split; [exact Eo|exact L2].
  - rewrite Ft. intros b [<-|I]; [exact M|]. specialize (N' b I). lia.
  - assert (Len : length (store (Some a) o (h ++ e)) = length (h ++ e)) by (apply store_length; intros c Q; injection Q as <-; exact La').
    split; [rewrite Len, app_length; lia|].
    intros b Lb C. rewrite nth_store_neq; [now apply nth_new|exact La'|]. intros <-. destruct C as [C|C]; [lia|].
    apply (C (Some a) (or_introl eq_refl)). apply foot_head.
  - rewrite Ft. intros b [<-|I]; [left; apply foot_head|]. right. now apply N'.
Qed.

Lemma renew_place_step n (i : Z) r v h : new_place n h r v ->
  new_place n (renew_place r h) r (regenerate append_place set_place_raw v) /\ changes 3 n [r] h (renew_place r h) /\
  (forall b, In b (foot 3 (renew_place r h) r) -> In b (foot 3 h r) \/ (length h <= b)%nat).
Proof.
  intros [P F]. destruct (renew_place_spec n r v h P) as (P' & C & Ft & _); [intros a ->; apply F; apply foot_head|].
  split; [split; [exact P'|now rewrite Ft]|]. split; [exact C|]. rewrite Ft. auto.
Qed.

(** ** Files *)

Lemma read_file {V} (vof : tree -> option V) h a d rs vs :
  nth_error h a = Some (mkObj d rs) -> Forall2 (fun r v => value vof 3 h r = Some v) rs vs ->
  exists ts, read 4 h (Some a) = Some (Some (Tree d ts)) /\ every (map (some vof) ts) = Some vs.
Proof.
  intros E F. apply records_iff in F. rewrite read_some, E. cbn [refs data].
  destruct (every (map (read 3 h) rs)) as [ts|]; [|discriminate F]. exists ts. split; [reflexivity|exact F].
Qed.

Lemma file_read {V} (vof : tree -> option V) h x d ts vs :
  read 4 h x = Some (Some (Tree d ts)) -> every (map (some vof) ts) = Some vs ->
  exists a rs, x = Some a /\ nth_error h a = Some (mkObj d rs) /\ Forall2 (fun r v => value vof 3 h r = Some v) rs vs.
Proof.
  destruct x as [a|]; [|discriminate]. rewrite read_some. destruct (nth_error h a) as [[d' rs]|] eqn:Ea; [|discriminate]. cbn [refs data].
  intros E F. destruct (every (map (read 3 h) rs)) as [ts'|] eqn:Et; [|discriminate E]. injection E as -> ->.
  exists a, rs. split; [reflexivity|]. split; [exact Ea|]. apply records_iff. now rewrite Et.
Qed.

Lemma places_iff h x v : places_at h x = Some v <->
  exists a rs, x = Some a /\ nth_error h a = Some (mkObj (DPlaces (ps_raw v) (ps_newest v)) rs) /\
    Forall2 (fun r p => place_at h r = Some p) rs (ps_records v).
Proof.
  split.
  - intros E. apply value_read in E as ([d ts] & R & E). destruct d; try discriminate E. cbn [places_of] in E.
    destruct (every (map (some place_of) ts)) as [vs|] eqn:Ev; [|discriminate E]. injection E as <-. cbn [ps_raw ps_newest ps_records].
    exact (file_read place_of h x _ ts vs R Ev).
  - intros (a & rs & -> & E & Fa). destruct (read_file place_of h a _ rs _ E Fa) as (ts & R & Ev).
    unfold places_at, value. rewrite R. cbn [obind some places_of]. rewrite Ev. now destruct v.
Qed.

Lemma file_foot h a d rs : nth_error h a = Some (mkObj d rs) -> foot 4 h (Some a) = a :: flat_map (foot 3 h) rs.
Proof. intros E. now rewrite foot_some, E. Qed.

Lemma forall2_frame {V} (vof : tree -> option V) h h' rs vs :
  (forall r b, In r rs -> In b (foot 3 h r) -> nth_error h' b = nth_error h b) ->
  Forall2 (fun r v => value vof 3 h r = Some v) rs vs -> Forall2 (fun r v => value vof 3 h' r = Some v) rs vs.
Proof.
  intros Fr P. revert Fr. induction P as [|r v rs vs P0 P IH]; intros Fr; [constructor|].
  constructor; [rewrite (value_frame vof 3 h h' r); [exact P0|]; intros b Ib; apply (Fr r b); [now left|exact Ib]|].
  apply IH. intros r' b I'. apply Fr. now right.
Qed.

Lemma foots_frame h h' rs : (forall r b, In r rs -> In b (foot 3 h r) -> nth_error h' b = nth_error h b) ->
  flat_map (foot 3 h') rs = flat_map (foot 3 h) rs.
Proof.
  intros Fr. induction rs as [|r rs IH]; [reflexivity|]. cbn [flat_map].
  rewrite (proj2 (frame 3 h h' r ltac:(intros b Ib; apply (Fr r b); [now left|exact Ib]))).
  f_equal. apply IH. intros r' b I'. apply Fr. now right.
Qed.

(** A write to an object that no record reaches *)
Lemma apart_frame m h h' rs : (forall r b, In r rs -> In b (foot 3 h r) -> nth_error h' b = nth_error h b) ->
  apart 3 m h rs -> apart 3 m h' rs.
Proof.
  intros Fr. assert (Ft : forall r, In r rs -> foot 3 h' r = foot 3 h r) by (intros r I'; apply frame; intros b; now apply Fr).
  clear Fr. induction rs as [|r rs IH]; [auto|]. intros [A0 A]. split.
  - intros r' b I' Lb. rewrite (Ft r (or_introl eq_refl)), (Ft r' (or_intror I')). now apply A0.
  - apply IH; [|exact A]. intros r' I'. apply Ft. now right.
Qed.

(** The bytes of the whole file are set last. *)
Lemma finish {V A} (vof : tree -> option V) (at_ : heap -> ref -> option A) ap set h a d rs vs v :
  nth_error h a = Some (mkObj d rs) -> Forall2 (fun r v => value vof 3 h r = Some v) rs vs ->
  (forall r, In r rs -> ~ In a (foot 3 h r)) -> at_ h (Some a) = Some v ->
  let h' := renew_at at_ ap set (Some a) h in
  let d' := match ap v with Ok b => set b d | _ => d end in
  nth_error h' a = Some (mkObj d' rs) /\ Forall2 (fun r v => value vof 3 h' r = Some v) rs vs /\
  (forall b, b <> a -> nth_error h' b = nth_error h b) /\ flat_map (foot 3 h') rs = flat_map (foot 3 h) rs /\
  length h' = length h.
Proof.
  intros E Fa N Ev. unfold renew_at. rewrite Ev. cbn [fetch]. rewrite E. cbv zeta.
  destruct (ap v) as [b|e|]; auto. cbn [data refs]. set (o := mkObj _ rs).
  assert (La : (a < length h)%nat) by (apply nth_error_Some; congruence).
  assert (Ne : forall b, b <> a -> nth_error (store (Some a) o h) b = nth_error h b) by (intros c Nc; apply nth_store_neq; [exact La|congruence]).
  assert (Fr : forall r b, In r rs -> In b (foot 3 h r) -> nth_error (store (Some a) o h) b = nth_error h b).
  { intros r c Ir Ic. apply Ne. intros ->. exact (N r Ir Ic). }
  split; [now apply nth_store_eq|]. split; [now apply (forall2_frame vof h)|]. split; [exact Ne|].
  split; [now apply foots_frame|]. apply store_length. intros c Q. injection Q as <-. exact La.
Qed.

(** ** The theorem for places *)

Lemma mapi_map {A B C} (g : A -> B) (k : Z -> B -> C) l i : mapi_from k i (map g l) = mapi_from (fun i a => k i (g a)) i l.
Proof. revert i. induction l as [|a l IH]; intros i; [reflexivity|]. cbn. now rewrite IH. Qed.

Lemma forall2_imp {A B} (P Q : A -> B -> Prop) l l' : (forall a b, In a l -> P a b -> Q a b) -> Forall2 P l l' -> Forall2 Q l l'.
Proof.
  intros H F. revert H. induction F as [|a b l l' P0 F IH]; intros H; [constructor|].
  constructor; [apply H; [now left|exact P0]|]. apply IH. intros a' b' I'. apply H. now right.
Qed.

Lemma forall2_in_r {A B} (P : A -> B -> Prop) l l' b : Forall2 P l l' -> In b l' -> exists a, In a l /\ P a b.
Proof.
  induction 1 as [|x y l l' P0 F IH]; intros [].
  - subst. exists x. split; [now left|exact P0].
  - destruct (IH H) as (a & I & P1). exists a. split; [now right|exact P1].
Qed.

Lemma forall2_in_l {A B} (P : A -> B -> Prop) l l' a : Forall2 P l l' -> In a l -> exists b, In b l' /\ P a b.
Proof.
  induction 1 as [|x y l l' P0 F IH]; intros [].
  - subst. exists y. split; [now left|exact P0].
  - destruct (IH H) as (b & I & P1). exists b. split; [now right|exact P1].
Qed.

Lemma anonymize_places_spec h0 x v : places_at h0 x = Some v ->
  let y := fst (anonymize_places_h x h0) in let h' := snd (anonymize_places_h x h0) in
  places_at h' y = Some (anonymize_places v) /\
  (forall b, (b < length h0)%nat -> nth_error h' b = nth_error h0 b) /\
  (forall b, In b (foot 4 h' y) -> (length h0 <= b)%nat).
Proof.
  intros P. apply places_iff in P as (a & rs & -> & Ea & Fa). set (n := length h0). unfold anonymize_places_h. cbn [fetch]. rewrite Ea. cbn [new].
  fold n. set (y0 := mkObj (DPlaces [] (ps_newest v)) []).
  destruct (collect_spec 3 n place_of place_of (fun _ => anonymize_place_h) (fun _ => anonymize_place) (time_ref h0)
              (fun _ r => forall a, r = Some a -> (n <= a)%nat) h0 eq_refl (fun _ _ _ _ q => q) (anonymize_place_step h0) rs (ps_records v) 0 [y0] Fa) as (e1 & E1 & V1 & _ & A1 & B1 & N1).
  destruct (collect (fun _ => anonymize_place_h) 0 rs (h0 ++ [y0])) as [rs1 h1]. cbn [fst snd] in *. subst h1.
  rewrite app_length in B1. cbn [length] in B1. fold n in B1. rewrite mapi_from_const in V1.
  set (o := mkObj (DPlaces [] (ps_newest v)) rs1).
  replace ((h0 ++ [y0]) ++ e1) with (h0 ++ y0 :: e1) in * by (rewrite <- app_assoc; reflexivity).
  pose proof (store_last h0 e1 o y0) as St. fold n in St. rewrite St. clear St. cbv zeta. set (h1 := h0 ++ y0 :: e1) in *. set (h2 := h0 ++ o :: e1).
  assert (Len : length h2 = length h1) by (unfold h1, h2; rewrite !app_length; reflexivity).
  assert (Ne : forall b, b <> n -> nth_error h2 b = nth_error h1 b).
  { intros b Nb. unfold h1, h2. destruct (Nat.lt_ge_cases b n) as [L|L]; [now rewrite !nth_new by exact L|].
    rewrite !nth_error_app2 by exact L. destruct (b - length h0)%nat eqn:Q; [fold n in Q; lia|reflexivity]. }
  assert (Nn : forall r, In r rs1 -> ~ In n (foot 3 h1 r)) by (intros r Ir In1; destruct (B1 r n Ir In1); lia).
  assert (Fr : forall r b, In r rs1 -> In b (foot 3 h1 r) -> nth_error h2 b = nth_error h1 b).
  { intros r b Ir Ib. apply Ne. intros ->. exact (Nn r Ir Ib). }
  pose proof (forall2_frame place_of h1 h2 rs1 _ Fr V1) as V2. pose proof (apart_frame n h1 h2 rs1 Fr A1) as A2.
  assert (Ft2 : forall r, In r rs1 -> foot 3 h2 r = foot 3 h1 r) by (intros r Ir; apply frame; intros b; now apply Fr).
  assert (M2 : Forall2 (mine_place n h2) rs1 (map anonymize_place (ps_records v))).
  { refine (forall2_imp _ _ _ _ _ V2). intros r p Ir Pr. split; [exact Pr|]. intros c ->.
    exact (N1 (Some c) Ir c eq_refl). }
  assert (L2 : (n <= length h2)%nat) by (unfold h2; rewrite app_length; unfold n; lia).
  destruct (each_spec 3 n (mine_place n) (new_place n) stamp_place_h stamp_place (mine_place_local n) (new_place_local n)
              (mine_place_within n) (new_place_within n) (stamp_place_step n) rs1 _ 0 h2 L2 M2 A2) as (V3 & A3 & (L3 & C3) & B3).
  set (h3 := each stamp_place_h 0 rs1 h2) in *.
  destruct (each_spec 3 n (new_place n) (new_place n) (fun _ => renew_place) (fun _ => regenerate append_place set_place_raw)
              (new_place_local n) (new_place_local n) (new_place_within n) (new_place_within n) (renew_place_step n)
              rs1 _ 0 h3 ltac:(lia) V3 A3) as (V4 & _ & (L4 & C4) & B4).
  set (h4 := each (fun _ => renew_place) 0 rs1 h3) in *. rewrite mapi_from_const in V4.
  assert (N2 : forall r, In r rs1 -> ~ In n (foot 3 h2 r)) by (intros r Ir; rewrite (Ft2 r Ir); now apply Nn).
  assert (Lo : (n < length h2)%nat) by (unfold h2; rewrite app_length; cbn [length]; unfold n; lia).
  assert (N3 : forall r, In r rs1 -> ~ In n (foot 3 h3 r)) by (intros r Ir I3; destruct (B3 r n Ir I3) as [I2|I2]; [exact (N2 r Ir I2)|lia]).
  assert (N4 : forall r, In r rs1 -> ~ In n (foot 3 h4 r)) by (intros r Ir I4; destruct (B4 r n Ir I4) as [I3|I3]; [exact (N3 r Ir I3)|lia]).
  assert (E4 : nth_error h4 n = Some o).
  { rewrite C4; [|lia|now right]. rewrite C3; [|exact Lo|now right]. apply nth_last. }
  assert (V4' : Forall2 (fun r p => place_at h4 r = Some p) rs1
    (map (regenerate append_place set_place_raw) (mapi_from stamp_place 0 (map anonymize_place (ps_records v))))).
  { refine (forall2_imp _ _ _ _ _ V4). now intros r p _ [Q _]. }
  set (w := mkPlaces [] (ps_newest v) (map (regenerate append_place set_place_raw) (mapi_from stamp_place 0 (map anonymize_place (ps_records v))))).
  assert (W : places_at h4 (Some n) = Some w).
  { apply places_iff. exists n, rs1. split; [reflexivity|]. split; [exact E4|exact V4']. }
  destruct (finish place_of places_at (fun p => append_places (Some p)) set_raw h4 n _ rs1 _ w E4 V4' N4 W) as (E5 & V5 & C5 & F5 & L5).
  set (h5 := renew_at places_at (fun p => append_places (Some p)) set_raw (Some n) h4) in *.
  split; [|split].
  - apply places_iff. exists n, rs1. split; [reflexivity|]. unfold anonymize_places, mapi. fold w. unfold regenerate.
    destruct (append_places (Some w)); split; first [exact E5|exact V5].
  - intros b Lb. fold n in Lb. rewrite C5 by lia. rewrite C4; [|lia|now left]. rewrite C3; [|lia|now left].
    unfold h2. now apply nth_new.
  - intros b Ib. rewrite (file_foot h5 n _ rs1 E5), F5 in Ib. destruct Ib as [<-|Ib]; [lia|].
    apply in_flat_map in Ib as (r & Ir & Ib). destruct (forall2_in_l _ _ _ r V4 Ir) as (p & _ & [_ Fp]). now apply Fp.
Qed.

(** ** Places of the second generation *)

Definition gnss_in (h : heap) (g : ref) (o : option gnss_place) : Prop :=
  match g, o with
  | None, None => True
  | Some c, Some w => exists t ge, nth_error h c = Some (mkObj (DGnss (gp_accuracy w)) [t; ge]) /\
      leaf DTime h t (gp_time w) /\ leaf DGeo h ge (gp_geo w)
  | _, _ => False
  end.

Lemma gnss_iff h g o : obind (read 2 h g) (opt gnss_of) = Some o <-> gnss_in h g o.
Proof.
  destruct g as [c|]; cbn [gnss_in].
  2: { cbn. destruct o; split; intros E; try discriminate E; try contradiction; auto. }
  rewrite read_some. destruct (nth_error h c) as [[d rs]|] eqn:Ec; cbn [refs data].
  2: { cbn. split; [discriminate|]. destruct o; [|contradiction]. intros (? & ? & E & _). discriminate E. }
  split.
  - intros E. destruct (every (map (read 1 h) rs)) as [ts|] eqn:Et; [|discriminate E]. cbn [option_map obind opt] in E.
    destruct (gnss_of (Tree d ts)) as [w|] eqn:Ew; [|discriminate E]. injection E as <-.
    destruct d; try discriminate Ew. destruct ts as [|o1 [|o2 [|? ?]]]; try discriminate Ew. cbn [gnss_of] in Ew.
    spread Et. opened Ew. joined. do 2 eexists. split; [reflexivity|].
    split; [now apply (leaf_iff DTime time_of time_is 0)|now apply (leaf_iff DGeo geo_of geo_is 0)].
  - destruct o as [w|]; [|contradiction]. intros (t & ge & E & L1 & L2). injection E as -> ->. cbn [map].
    apply (leaf_iff DTime time_of time_is 0) in L1. apply (leaf_iff DGeo geo_of geo_is 0) in L2.
    split_leaf L1. split_leaf L2. cbn [every option_map obind opt gnss_of]. rewrite L1, L2. cbn [obind option_map]. now destruct w.
Qed.

Definition place2_data (v : place_g2) : payload :=
  DPlace2 (pl2_raw v) (pl2_entry v) (pl2_entry_unrecognized v) (pl2_country v) (pl2_country_unrecognized v) (pl2_region v) (pl2_odometer v).

Lemma place2_iff h r v : place2_at h r = Some v <->
  exists a t g, r = Some a /\ nth_error h a = Some (mkObj (place2_data v) [t; g]) /\
    leaf DTime h t (pl2_time v) /\ gnss_in h g (pl2_gnss v).
Proof.
  unfold place2_at, value. split.
  - destruct r as [a|]; [|discriminate]. rewrite read_some. destruct (nth_error h a) as [[d rs]|] eqn:Ea; [|discriminate].
    cbn [refs data]. intros E. destruct (every (map (read 2 h) rs)) as [ts|] eqn:Et; [|discriminate E]. cbn [option_map obind some] in E.
    destruct d; try discriminate E. destruct ts as [|o1 [|o2 [|? ?]]]; try discriminate E. cbn [place2_of] in E.
    spread Et. opened E. joined. do 3 eexists. split; [reflexivity|]. split; [exact Ea|].
    split; [now apply (leaf_iff DTime time_of time_is 1)|now apply gnss_iff].
  - intros (a & t & g & -> & Ea & L & Gn). rewrite read_some, Ea. cbn [refs data map].
    apply (leaf_iff DTime time_of time_is 1) in L. apply gnss_iff in Gn. split_leaf L. split_leaf Gn.
    cbn [every option_map obind some place2_of place2_data]. rewrite L, Gn. cbn [obind]. now destruct v.
Qed.

Definition gnss_foot (h : heap) (g : ref) : list nat :=
  match g with
  | None => []
  | Some c => c :: match nth_error h c with Some (mkObj _ [t; ge]) => ol t ++ ol ge | _ => [] end
  end.

Lemma gnss_foot_is h g o : gnss_in h g o -> foot 2 h g = gnss_foot h g.
Proof.
  destruct g as [c|]; [|reflexivity]. destruct o as [w|]; [|contradiction]. intros (t & ge & E & L1 & L2).
  rewrite foot_some. cbn [gnss_foot]. rewrite E. cbn [refs flat_map].
  rewrite (leaf_foot DTime 0 h t _ L1), (leaf_foot DGeo 0 h ge _ L2). now rewrite app_nil_r.
Qed.

Lemma place2_foot h a d t g o w : nth_error h a = Some (mkObj d [t; g]) -> leaf DTime h t o -> gnss_in h g w ->
  foot 3 h (Some a) = a :: ol t ++ gnss_foot h g.
Proof.
  intros E L Gn. rewrite foot_some, E. cbn [refs flat_map]. rewrite (leaf_foot DTime 1 h t o L), (gnss_foot_is h g w Gn).
  now rewrite app_nil_r.
Qed.

Lemma gnss_grow h e g o : gnss_in h g o -> gnss_in (h ++ e) g o /\ gnss_foot (h ++ e) g = gnss_foot h g.
Proof.
  destruct g as [c|], o as [w|]; cbn [gnss_in gnss_foot]; try contradiction; auto. intros (t & ge & E & L1 & L2).
  rewrite nth_new by (apply nth_error_Some; congruence). rewrite E. split; [|reflexivity].
  exists t, ge. split; [reflexivity|]. split; now apply leaf_grow.
Qed.

Lemma gnss_store h a d rs o g x : nth_error h a = Some (mkObj d rs) ->
  (forall y, d <> DGnss y) -> (forall y, d <> DTime y) -> (forall y, d <> DGeo y) -> gnss_in h g x ->
  gnss_in (store (Some a) o h) g x /\ gnss_foot (store (Some a) o h) g = gnss_foot h g.
Proof.
  intros Ea N1 N2 N3. destruct g as [c|], x as [w|]; cbn [gnss_in gnss_foot]; try contradiction; auto. intros (t & ge & E & L1 & L2).
  assert (Q : nth_error (store (Some a) o h) c = nth_error h c).
  { apply nth_store_neq; [apply nth_error_Some; congruence|]. intros <-. rewrite Ea in E. injection E as E _. exact (N1 _ E). }
  rewrite Q. split; [|reflexivity]. exists t, ge. split; [exact E|].
  split; [exact (leaf_store DTime h a d rs o t _ Ea N2 L1)|exact (leaf_store DGeo h a d rs o ge _ Ea N3 L2)].
Qed.

Lemma renew_place2_spec m r v h : place2_at h r = Some v -> (forall a, r = Some a -> (m <= a)%nat) ->
  place2_at (renew_place2 r h) r = Some (regenerate append_place_g2 set_place_g2_raw v) /\
  changes 3 m [r] h (renew_place2 r h) /\ foot 3 (renew_place2 r h) r = foot 3 h r.
Proof.
  intros P M. unfold renew_place2, renew_at. rewrite P. apply place2_iff in P as (a & t & g & -> & Ea & L & Gn). cbn [fetch]. rewrite Ea.
  specialize (M a eq_refl). assert (La : (a < length h)%nat) by (apply nth_error_Some; congruence). unfold regenerate.
  assert (P : place2_at h (Some a) = Some v) by (apply place2_iff; exists a, t, g; auto).
  destruct (append_place_g2 v) as [b|e|]; [|split; [exact P|]; split; [apply changes_refl|auto] ..].
  cbn [data refs place2_data set_raw]. set (o := mkObj _ _).
  assert (L' : leaf DTime (store (Some a) o h) t (pl2_time v)) by (eapply leaf_store; [exact Ea|discriminate|exact L]).
  destruct (gnss_store h a _ _ o g _ Ea ltac:(discriminate) ltac:(discriminate) ltac:(discriminate) Gn) as [G' GF].
  assert (Eo : nth_error (store (Some a) o h) a = Some o) by now apply nth_store_eq.
  split; [apply place2_iff; exists a, t, g; auto|]. split; [now apply store_changes|].
  rewrite (place2_foot h a _ t g _ _ Ea L Gn), <- GF. apply place2_foot with (2 := L') (3 := G') (d := data o). exact Eo.
Qed.

(** The times of a place *)
Definition time_refs (h : heap) (r : ref) : list nat :=
  match fetch h r with
  | Some (mkObj _ [t; g]) => ol t ++ match fetch h g with Some (mkObj _ [tg; _]) => ol tg | _ => [] end
  | _ => []
  end.

Lemma old_app n l l' : filter (old n) (l ++ l') = filter (old n) l ++ filter (old n) l'.
Proof. apply filter_app. Qed.

Lemma anonymize_gnss_step h0 e g o : gnss_in h0 g o ->
  exists e' g', anonymize_gnss_h g (h0 ++ e) = (g', (h0 ++ e) ++ e') /\
    gnss_in ((h0 ++ e) ++ e') g' (option_map anonymize_gnss o) /\
    filter (old (length h0)) (gnss_foot ((h0 ++ e) ++ e') g') = match fetch h0 g with Some (mkObj _ [tg; _]) => ol tg | _ => [] end /\
    (forall b, In b (gnss_foot ((h0 ++ e) ++ e') g') -> (b < length h0)%nat \/ (length (h0 ++ e) <= b)%nat) /\
    (forall c, g' = Some c -> (length h0 <= c)%nat /\
       forall d t ge b, nth_error ((h0 ++ e) ++ e') c = Some (mkObj d [t; ge]) -> In b (ol ge) -> (length h0 <= b)%nat).
Proof.
  set (H := h0 ++ e). assert (Lh : (length h0 <= length H)%nat) by (unfold H; rewrite app_length; lia).
  destruct g as [c|], o as [w|]; cbn [gnss_in]; try contradiction.
  - intros (t & ge & E & L1 & L2). unfold anonymize_gnss_h. cbn [fetch].
    assert (Lc : (c < length h0)%nat) by (apply nth_error_Some; congruence).
    unfold H at 1. rewrite (nth_new h0 e c Lc), E. cbn [new]. set (x := mkObj (DGeo _) []). set (z := mkObj (DGnss _) _).
    exists [x; z], (Some (length (H ++ [x]))). replace ((H ++ [x]) ++ [z]) with (H ++ [x; z]) by (rewrite <- app_assoc; reflexivity).
    assert (Ez : nth_error (H ++ [x; z]) (length (H ++ [x])) = Some z).
    { replace (H ++ [x; z]) with ((H ++ [x]) ++ [z]) by (rewrite <- app_assoc; reflexivity). apply nth_last. }
    split; [unfold new; rewrite <- app_assoc; reflexivity|]. cbn [option_map gnss_in]. split.
    { exists t, (Some (length H)). split; [exact Ez|]. unfold H. split; [apply leaf_grow, leaf_grow; exact L1|].
      cbn [anonymize_gnss gp_geo leaf]. apply nth_last. }
    assert (Lt : forall b, In b (ol t) -> (b < length h0)%nat) by now apply (leaf_old DTime h0 t (gp_time w)).
    cbn [gnss_foot]. rewrite Ez. cbn [ol z].
    split; [|split].
    + rewrite old_new by (rewrite app_length; lia). rewrite old_app, (old_all _ _ Lt). cbn [ol]. rewrite old_new by exact Lh.
      cbn [filter]. now rewrite app_nil_r.
    + intros b [<-|Ib]; [right; rewrite app_length; lia|]. apply in_app_or in Ib as [Ib|[<-|[]]]; [left; now apply Lt|right; lia].
    + intros c' Q. injection Q as <-. split; [rewrite app_length; lia|]. rewrite Ez. intros d t' ge' b Q. injection Q as <- <- <-.
      intros [<-|[]]. exact Lh.
  - intros _. exists [], None. cbn. rewrite app_nil_r. split; [reflexivity|]. split; [exact I|]. split; [reflexivity|].
    split; [intros b []|discriminate].
Qed.

(** The record and what is below it are new, but for the times. *)
Definition own_gnss (n : nat) (h : heap) (g : ref) : Prop :=
  forall c, g = Some c -> (n <= c)%nat /\
    forall d t ge b, nth_error h c = Some (mkObj d [t; ge]) -> In b (ol ge) -> (n <= b)%nat.

Definition own_place2 (n : nat) (h : heap) (r : ref) : Prop :=
  forall a, r = Some a -> (n <= a)%nat /\
    forall d t g, nth_error h a = Some (mkObj d [t; g]) -> own_gnss n h g.

Lemma anonymize_place2_step h0 (i : Z) r v e : place2_at h0 r = Some v ->
  exists e', snd (anonymize_place2_h r (h0 ++ e)) = (h0 ++ e) ++ e' /\
    let r' := fst (anonymize_place2_h r (h0 ++ e)) in
    place2_at ((h0 ++ e) ++ e') r' = Some (anonymize_place_g2 v) /\
    filter (old (length h0)) (foot 3 ((h0 ++ e) ++ e') r') = time_refs h0 r /\
    (forall b, In b (foot 3 ((h0 ++ e) ++ e') r') -> (b < length h0)%nat \/ (length (h0 ++ e) <= b)%nat) /\
    own_place2 (length h0) ((h0 ++ e) ++ e') r'.
Proof.
  intros P. apply place2_iff in P as (a & t & g & -> & Ea & L & Gn).
  assert (La : (a < length h0)%nat) by (apply nth_error_Some; congruence).
  unfold anonymize_place2_h. cbn [fetch]. rewrite (nth_new h0 e a La), Ea. cbn [place2_data].
  destruct (anonymize_gnss_step h0 e g _ Gn) as (e1 & g1 & -> & G1 & S1 & B1 & N1). cbn [new fst snd].
  set (H := h0 ++ e) in *. set (o := mkObj _ [t; g1]). assert (Lh : (length h0 <= length H)%nat) by (unfold H; rewrite app_length; lia).
  exists (e1 ++ [o]). rewrite (app_assoc H e1 [o]). set (H1 := H ++ e1) in *.
  assert (LH : leaf DTime (H1 ++ [o]) t (pl2_time v)) by (unfold H1, H; do 3 apply leaf_grow; exact L).
  destruct (gnss_grow H1 [o] g1 _ G1) as [G2 F2].
  split; [reflexivity|]. split.
  { apply place2_iff. exists (length H1), t, g1. split; [reflexivity|]. split; [apply nth_last|]. split; [exact LH|exact G2]. }
  rewrite (place2_foot _ _ _ t g1 _ _ (nth_last H1 o []) LH G2), F2.
  assert (Lt : forall b, In b (ol t) -> (b < length h0)%nat) by now apply (leaf_old DTime h0 t (pl2_time v)).
  assert (L1 : (length H <= length H1)%nat) by (unfold H1; rewrite app_length; lia).
  split; [|split].
  - rewrite old_new by lia. rewrite old_app, (old_all _ _ Lt), S1. unfold time_refs. cbn [fetch]. now rewrite Ea.
  - intros b [<-|Ib]; [right; lia|]. apply in_app_or in Ib as [Ib|Ib]; [left; now apply Lt|now apply B1].
  - intros c Q. injection Q as <-. split; [lia|]. rewrite nth_last. intros d t' g' Q. injection Q as <- <- <-.
    intros c Q. destruct (N1 c Q) as [N1a N1b]. split; [exact N1a|]. intros d t' ge b. rewrite nth_new; [apply N1b|].
    subst g1. destruct (pl2_gnss v) as [w|]; [|contradiction]. destruct G1 as (? & ? & G1 & _). apply nth_error_Some. congruence.
Qed.

Definition mine_place2 (n : nat) (h : heap) (r : ref) (v : place_g2) : Prop :=
  place2_at h r = Some v /\ own_place2 n h r.

Definition new_place2 (n : nat) (h : heap) (r : ref) (v : place_g2) : Prop :=
  place2_at h r = Some v /\ forall b, In b (foot 3 h r) -> (n <= b)%nat.

Lemma own_place2_local n h h' r : (forall b, In b (foot 3 h r) -> nth_error h' b = nth_error h b) -> own_place2 n h r -> own_place2 n h' r.
Proof.
  intros F O a ->. destruct (O a eq_refl) as [O1 O2]. split; [exact O1|]. rewrite (F a (foot_head 3 h a)).
  intros d t g E c ->. destruct (O2 d t _ E c eq_refl) as [O3 O4]. split; [exact O3|]. rewrite (F c); [exact O4|].
  rewrite foot_some, E. right. cbn [refs]. apply in_flat_map. exists (Some c). split; [right; now left|apply foot_head].
Qed.

Lemma mine_place2_local n : local 3 (mine_place2 n).
Proof.
  intros h h' r x F (P & M). split; [unfold place2_at in *; now rewrite (value_frame place2_of 3 h h' r F)|].
  now apply (own_place2_local n h).
Qed.

Lemma mine_place2_within n : within 3 (mine_place2 n).
Proof. intros h r x [P _]. now apply value_inside with (1 := P). Qed.

Lemma new_place2_local n : local 3 (new_place2 n).
Proof.
  intros h h' r x F [P M]. split; [unfold place2_at in *; now rewrite (value_frame place2_of 3 h h' r F)|].
  now rewrite (proj2 (frame 3 h h' r F)).
Qed.

Lemma new_place2_within n : within 3 (new_place2 n).
Proof. intros h r x [P _]. now apply value_inside with (1 := P). Qed.

Lemma stamp_place2_step n i r v h : mine_place2 n h r v ->
  new_place2 n (stamp_place2_h i r h) r (stamp_place_g2 i v) /\ changes 3 n [r] h (stamp_place2_h i r h) /\
  (forall b, In b (foot 3 (stamp_place2_h i r h) r) -> In b (foot 3 h r) \/ (length h <= b)%nat).
Proof.
  intros (P & M). apply place2_iff in P as (a & t & g & -> & Ea & L & Gn). destruct (M a eq_refl) as [Ma Mc]. clear M. rename Ma into M.
  specialize (Mc _ _ _ Ea).
  assert (La : (a < length h)%nat) by (apply nth_error_Some; congruence).
  pose proof (place2_foot h a _ t g _ _ Ea L Gn) as Ft0. rewrite Ft0.
  unfold stamp_place2_h. cbn [fetch] in *. rewrite Ea. destruct (stamp_ref_spec i t h _ L) as (e & t' & -> & L' & N').
  set (o := mkObj (place2_data v) [t'; g]). set (h1 := store (Some a) o (h ++ e)).
  assert (La' : (a < length (h ++ e))%nat) by (rewrite app_length; lia).
  assert (Ea' : nth_error (h ++ e) a = Some (mkObj (place2_data v) [t; g])) by now rewrite nth_new.
  assert (L2 : leaf DTime h1 t' (stamp i (pl2_time v))) by (eapply leaf_store; [exact Ea'|discriminate|exact L']).
  destruct (gnss_grow h e g _ Gn) as [G1 F1].
  destruct (gnss_store (h ++ e) a _ _ o g _ Ea' ltac:(discriminate) ltac:(discriminate) ltac:(discriminate) G1) as [G2 F2]. fold h1 in G2, F2.
  assert (Eo : nth_error h1 a = Some o) by now apply nth_store_eq.
  assert (Len : length h1 = length (h ++ e)) by (apply store_length; intros c Q; injection Q as <-; exact La').
  assert (Old : forall b, (b < length h)%nat -> b <> a -> nth_error h1 b = nth_error h b).
  { intros b Lb Nb. unfold h1. rewrite nth_store_neq; [now apply nth_new|exact La'|congruence]. }
  destruct g as [c|].
  2: { cbn [fetch]. destruct (pl2_gnss v) as [w|] eqn:Ew; [contradiction|].
       pose proof (place2_foot h1 a _ t' None _ None Eo L2 I) as Ft. split; [split|split].
       - apply place2_iff. exists a, t', None. split; [reflexivity|]. split; [exact Eo|]. split; [exact L2|].
         cbn [stamp_place_g2 pl2_gnss]. now rewrite Ew.
       - rewrite Ft. cbn [gnss_foot]. rewrite app_nil_r. intros b [<-|I]; [exact M|]. specialize (N' b I). lia.
       - split; [rewrite Len, app_length; lia|]. intros b Lb C. apply Old; [exact Lb|]. intros ->.
         destruct C as [C|C]; [lia|]. apply (C (Some a) (or_introl eq_refl)). apply foot_head.
       - rewrite Ft. cbn [gnss_foot]. rewrite !app_nil_r. intros b [<-|I]; [left; now left|]. right. now apply N'. }
  destruct (pl2_gnss v) as [w|] eqn:Ew; [|contradiction]. destruct (Mc c eq_refl) as [Mc1 Mc2]. clear Mc.
  destruct Gn as (t0 & ge0 & E0 & L01 & L02). destruct G2 as (tg & ge & E2 & L21 & L22). cbn [fetch]. rewrite E2.
  assert (Nca : c <> a) by (intros ->; rewrite Eo in E2; injection E2 as E2 _; discriminate E2).
  assert (Lc : (c < length h)%nat) by (apply nth_error_Some; congruence).
  assert (Q0 : tg = t0 /\ ge = ge0) by (rewrite Old in E2 by auto; rewrite E2 in E0; injection E0 as -> ->; auto). destruct Q0; subst t0 ge0.
  assert (Geo : forall b, In b (ol ge) -> (n <= b)%nat) by (intros b; exact (Mc2 _ _ _ b E0)).
  assert (Lh1 : (length h <= length h1)%nat) by (rewrite Len, app_length; lia).
  assert (F0 : gnss_foot h (Some c) = c :: ol tg ++ ol ge) by (cbn [gnss_foot]; now rewrite E0). rewrite F0.
  destruct tg as [ct|].
  - (* a new time for the position *)
    destruct (gp_time w) as [tw|] eqn:Etw; [|contradiction]. cbn [new]. set (x := mkObj (DTime _) []).
    set (z := mkObj _ [_; ge]). set (h2 := h1 ++ [x]). set (h3 := store (Some c) z h2).
    assert (Lc2 : (c < length h2)%nat) by (unfold h2; rewrite app_length; lia).
    assert (Ec2 : nth_error h2 c = Some (mkObj (DGnss (gp_accuracy w)) [Some ct; ge])) by (unfold h2; rewrite nth_new; [exact E2|lia]).
    assert (Ez : nth_error h3 c = Some z) by now apply nth_store_eq.
    assert (La1 : (a < length h1)%nat) by lia.
    assert (Eo3 : nth_error h3 a = Some o) by (unfold h3; rewrite nth_store_neq; [unfold h2; now rewrite nth_new|exact Lc2|exact Nca]).
    assert (L3 : leaf DTime h3 t' (stamp i (pl2_time v))) by (eapply leaf_store; [exact Ec2|discriminate|]; now apply leaf_grow).
    assert (G3 : gnss_in h3 (Some c) (Some (stamp_gnss i w))).
    { exists (Some (length h1)), ge. split; [exact Ez|]. cbn [stamp_gnss gp_time gp_geo]. rewrite Etw. split.
      - eapply leaf_store; [exact Ec2|discriminate|]. apply leaf_new.
      - eapply leaf_store; [exact Ec2|discriminate|]. now apply leaf_grow. }
    pose proof (place2_foot h3 a _ t' (Some c) _ _ Eo3 L3 G3) as Ft. cbn [gnss_foot] in Ft. rewrite Ez in Ft.
    assert (Len3 : length h3 = length h2) by (apply store_length; intros c' Q; injection Q as <-; exact Lc2).
    split; [split|split].
    + apply place2_iff. exists a, t', (Some c). split; [reflexivity|]. split; [exact Eo3|]. split; [exact L3|].
      cbn [stamp_place_g2 pl2_gnss]. rewrite Ew. exact G3.
    + rewrite Ft. intros b [<-|I]; [exact M|]. apply in_app_or in I as [I|[<-|I]]; [specialize (N' b I); lia|exact Mc1|].
      cbn [ol] in I. apply in_app_or in I as [[<-|[]]|I]; [lia|now apply Geo].
    + split; [rewrite Len3; unfold h2; rewrite app_length; lia|]. intros b Lb C.
      assert (Nb : b <> a /\ b <> c).
      { split; intros ->; (destruct C as [C|C]; [lia|]); apply (C (Some a) (or_introl eq_refl)); rewrite Ft0; [now left|].
        right. apply in_or_app. right. rewrite F0. now left. }
      destruct Nb as [Nb1 Nb2]. unfold h3. rewrite nth_store_neq; [|exact Lc2|congruence]. unfold h2. rewrite nth_new by lia. now apply Old.
    + rewrite Ft. intros b [<-|I]; [left; now left|]. apply in_app_or in I as [I|[<-|I]]; [right; now apply N'|left|].
      { right. apply in_or_app. right. now left. }
      apply in_app_or in I as [[<-|[]]|I]; [right; exact Lh1|left]. right. apply in_or_app. right. right. apply in_or_app. now right.
  - (* the position has no time *)
    destruct (gp_time w) as [tw|] eqn:Etw; [contradiction|].
    assert (G3 : gnss_in h1 (Some c) (Some (stamp_gnss i w))).
    { exists None, ge. split; [exact E2|]. cbn [stamp_gnss gp_time gp_geo]. rewrite Etw. split; [exact I|exact L22]. }
    pose proof (place2_foot h1 a _ t' (Some c) _ _ Eo L2 G3) as Ft. cbn [gnss_foot] in Ft. rewrite E2 in Ft. cbn [ol List.app] in Ft.
    split; [split|split].
    + apply place2_iff. exists a, t', (Some c). split; [reflexivity|]. split; [exact Eo|]. split; [exact L2|].
      cbn [stamp_place_g2 pl2_gnss]. rewrite Ew. exact G3.
    + rewrite Ft. intros b [<-|I]; [exact M|]. apply in_app_or in I as [I|[<-|I]]; [specialize (N' b I); lia|exact Mc1|now apply Geo].
    + split; [exact Lh1|]. intros b Lb C. apply Old; [exact Lb|]. intros ->.
      destruct C as [C|C]; [lia|]. apply (C (Some a) (or_introl eq_refl)). apply foot_head.
    + rewrite Ft. intros b [<-|I]; [left; now left|]. apply in_app_or in I as [I|[<-|I]]; [right; now apply N'|left|left].
      * right. apply in_or_app. right. now left.
      * right. apply in_or_app. right. right. exact I.
Qed.

Lemma renew_place2_step n (i : Z) r v h : new_place2 n h r v ->
  new_place2 n (renew_place2 r h) r (regenerate append_place_g2 set_place_g2_raw v) /\ changes 3 n [r] h (renew_place2 r h) /\
  (forall b, In b (foot 3 (renew_place2 r h) r) -> In b (foot 3 h r) \/ (length h <= b)%nat).
Proof.
  intros [P F]. destruct (renew_place2_spec n r v h P) as (P' & C & Ft); [intros a ->; apply F; apply foot_head|].
  split; [split; [exact P'|now rewrite Ft]|]. split; [exact C|]. rewrite Ft. auto.
Qed.

(** ** The theorem for places of the second generation *)

Lemma places2_iff h x v : places2_at h x = Some v <->
  exists a rs, x = Some a /\ nth_error h a = Some (mkObj (DPlaces2 (ps2_raw v) (ps2_newest v)) rs) /\
    Forall2 (fun r p => place2_at h r = Some p) rs (ps2_records v).
Proof.
  split.
  - intros E. apply value_read in E as ([d ts] & R & E). destruct d; try discriminate E. cbn [places2_of] in E.
    destruct (every (map (some place2_of) ts)) as [vs|] eqn:Ev; [|discriminate E]. injection E as <-. cbn [ps2_raw ps2_newest ps2_records].
    exact (file_read place2_of h x _ ts vs R Ev).
  - intros (a & rs & -> & E & Fa). destruct (read_file place2_of h a _ rs _ E Fa) as (ts & R & Ev).
    unfold places2_at, value. rewrite R. cbn [obind some places2_of]. rewrite Ev. now destruct v.
Qed.

Lemma anonymize_places2_spec h0 x v : places2_at h0 x = Some v ->
  let y := fst (anonymize_places2_h x h0) in let h' := snd (anonymize_places2_h x h0) in
  places2_at h' y = Some (anonymize_places_g2 v) /\
  (forall b, (b < length h0)%nat -> nth_error h' b = nth_error h0 b) /\
  (forall b, In b (foot 4 h' y) -> (length h0 <= b)%nat).
Proof.
  intros P. apply places2_iff in P as (a & rs & -> & Ea & Fa). set (n := length h0). unfold anonymize_places2_h. cbn [fetch]. rewrite Ea. cbn [new].
  fold n. set (y0 := mkObj (DPlaces2 [] (ps2_newest v)) []).
  destruct (collect_spec 3 n place2_of place2_of (fun _ => anonymize_place2_h) (fun _ => anonymize_place_g2) (time_refs h0)
              (own_place2 n) h0 eq_refl (own_place2_local n) (anonymize_place2_step h0) rs (ps2_records v) 0 [y0] Fa) as (e1 & E1 & V1 & _ & A1 & B1 & N1).
  destruct (collect (fun _ => anonymize_place2_h) 0 rs (h0 ++ [y0])) as [rs1 h1]. cbn [fst snd] in *. subst h1.
  rewrite app_length in B1. cbn [length] in B1. fold n in B1. rewrite mapi_from_const in V1.
  set (o := mkObj (DPlaces2 [] (ps2_newest v)) rs1).
  replace ((h0 ++ [y0]) ++ e1) with (h0 ++ y0 :: e1) in * by (rewrite <- app_assoc; reflexivity).
  pose proof (store_last h0 e1 o y0) as St. fold n in St. rewrite St. clear St. cbv zeta. set (h1 := h0 ++ y0 :: e1) in *. set (h2 := h0 ++ o :: e1).
  assert (Len : length h2 = length h1) by (unfold h1, h2; rewrite !app_length; reflexivity).
  assert (Ne : forall b, b <> n -> nth_error h2 b = nth_error h1 b).
  { intros b Nb. unfold h1, h2. destruct (Nat.lt_ge_cases b n) as [L|L]; [now rewrite !nth_new by exact L|].
    rewrite !nth_error_app2 by exact L. destruct (b - length h0)%nat eqn:Q; [fold n in Q; lia|reflexivity]. }
  assert (Nn : forall r, In r rs1 -> ~ In n (foot 3 h1 r)) by (intros r Ir In1; destruct (B1 r n Ir In1); lia).
  assert (Fr : forall r b, In r rs1 -> In b (foot 3 h1 r) -> nth_error h2 b = nth_error h1 b).
  { intros r b Ir Ib. apply Ne. intros ->. exact (Nn r Ir Ib). }
  pose proof (forall2_frame place2_of h1 h2 rs1 _ Fr V1) as V2. pose proof (apart_frame n h1 h2 rs1 Fr A1) as A2.
  assert (Ft2 : forall r, In r rs1 -> foot 3 h2 r = foot 3 h1 r) by (intros r Ir; apply frame; intros b; now apply Fr).
  assert (M2 : Forall2 (mine_place2 n h2) rs1 (map anonymize_place_g2 (ps2_records v))).
  { refine (forall2_imp _ _ _ _ _ V2). intros r p Ir Pr. split; [exact Pr|]. apply (own_place2_local n h1); [intros c; now apply Fr|]. now apply N1. }
  assert (L2 : (n <= length h2)%nat) by (unfold h2; rewrite app_length; unfold n; lia).
  destruct (each_spec 3 n (mine_place2 n) (new_place2 n) stamp_place2_h stamp_place_g2 (mine_place2_local n) (new_place2_local n)
              (mine_place2_within n) (new_place2_within n) (stamp_place2_step n) rs1 _ 0 h2 L2 M2 A2) as (V3 & A3 & (L3 & C3) & B3).
  set (h3 := each stamp_place2_h 0 rs1 h2) in *.
  destruct (each_spec 3 n (new_place2 n) (new_place2 n) (fun _ => renew_place2) (fun _ => regenerate append_place_g2 set_place_g2_raw)
              (new_place2_local n) (new_place2_local n) (new_place2_within n) (new_place2_within n) (renew_place2_step n)
              rs1 _ 0 h3 ltac:(lia) V3 A3) as (V4 & _ & (L4 & C4) & B4).
  set (h4 := each (fun _ => renew_place2) 0 rs1 h3) in *. rewrite mapi_from_const in V4.
  assert (N2 : forall r, In r rs1 -> ~ In n (foot 3 h2 r)) by (intros r Ir; rewrite (Ft2 r Ir); now apply Nn).
  assert (Lo : (n < length h2)%nat) by (unfold h2; rewrite app_length; cbn [length]; unfold n; lia).
  assert (N3 : forall r, In r rs1 -> ~ In n (foot 3 h3 r)) by (intros r Ir I3; destruct (B3 r n Ir I3) as [I2|I2]; [exact (N2 r Ir I2)|lia]).
  assert (N4 : forall r, In r rs1 -> ~ In n (foot 3 h4 r)) by (intros r Ir I4; destruct (B4 r n Ir I4) as [I3|I3]; [exact (N3 r Ir I3)|lia]).
  assert (E4 : nth_error h4 n = Some o).
  { rewrite C4; [|lia|now right]. rewrite C3; [|exact Lo|now right]. apply nth_last. }
  assert (V4' : Forall2 (fun r p => place2_at h4 r = Some p) rs1
    (map (regenerate append_place_g2 set_place_g2_raw) (mapi_from stamp_place_g2 0 (map anonymize_place_g2 (ps2_records v))))).
  { refine (forall2_imp _ _ _ _ _ V4). now intros r p _ [Q _]. }
  set (w := mkPlaces2 [] (ps2_newest v) (map (regenerate append_place_g2 set_place_g2_raw) (mapi_from stamp_place_g2 0 (map anonymize_place_g2 (ps2_records v))))).
  assert (W : places2_at h4 (Some n) = Some w).
  { apply places2_iff. exists n, rs1. split; [reflexivity|]. split; [exact E4|exact V4']. }
  destruct (finish place2_of places2_at (fun p => append_places_g2 (Some p)) set_raw h4 n _ rs1 _ w E4 V4' N4 W) as (E5 & V5 & C5 & F5 & L5).
  set (h5 := renew_at places2_at (fun p => append_places_g2 (Some p)) set_raw (Some n) h4) in *.
  split; [|split].
  - apply places2_iff. exists n, rs1. split; [reflexivity|]. unfold anonymize_places_g2, mapi. fold w. unfold regenerate.
    destruct (append_places_g2 (Some w)); split; first [exact E5|exact V5].
  - intros b Lb. fold n in Lb. rewrite C5 by lia. rewrite C4; [|lia|now left]. rewrite C3; [|lia|now left].
    unfold h2. now apply nth_new.
  - intros b Ib. rewrite (file_foot h5 n _ rs1 E5), F5 in Ib. destruct Ib as [<-|Ib]; [lia|].
    apply in_flat_map in Ib as (r & Ir & Ib). destruct (forall2_in_l _ _ _ r V4 Ir) as (p & _ & [_ Fp]). now apply Fp.
Qed.

(** ** Vehicles used *)

Definition reg_in (h : heap) (g : ref) (o : option vreg) : Prop :=
  match g, o with
  | None, None => True
  | Some c, Some w => exists s, nth_error h c = Some (mkObj (DReg (vr_nation w)) [s]) /\ leaf DStr h s (vr_number w)
  | _, _ => False
  end.

Lemma reg_iff h g o : obind (read 2 h g) (opt reg_of) = Some o <-> reg_in h g o.
Proof.
  destruct g as [c|]; cbn [reg_in].
  2: { cbn. destruct o; split; intros E; try discriminate E; try contradiction; auto. }
  rewrite read_some. destruct (nth_error h c) as [[d rs]|] eqn:Ec; cbn [refs data].
  2: { cbn. split; [discriminate|]. destruct o; [|contradiction]. intros (? & E & _). discriminate E. }
  split.
  - intros E. destruct (every (map (read 1 h) rs)) as [ts|] eqn:Et; [|discriminate E]. cbn [option_map obind opt] in E.
    destruct (reg_of (Tree d ts)) as [w|] eqn:Ew; [|discriminate E]. injection E as <-.
    destruct d; try discriminate Ew. destruct ts as [|o1 [|? ?]]; try discriminate Ew. cbn [reg_of] in Ew.
    spread Et. opened Ew. joined. eexists. split; [reflexivity|]. now apply (leaf_iff DStr str_of str_is 0).
  - destruct o as [w|]; [|contradiction]. intros (s & E & L1). injection E as -> ->. cbn [map].
    apply (leaf_iff DStr str_of str_is 0) in L1. split_leaf L1. cbn [every option_map obind opt reg_of]. rewrite L1.
    cbn [obind option_map]. now destruct w.
Qed.

Definition vehicle_data (v : card_vehicle) : payload := DVehicle (cv_raw v) (cv_odo_begin v) (cv_odo_end v).

Lemma vehicle_iff h r v : vehicle_at h r = Some v <->
  exists a f l g c, r = Some a /\ nth_error h a = Some (mkObj (vehicle_data v) [f; l; g; c]) /\
    leaf DTime h f (cv_first_use v) /\ leaf DTime h l (cv_last_use v) /\ reg_in h g (cv_reg v) /\ leaf DBcd h c (cv_counter v).
Proof.
  unfold vehicle_at, value. split.
  - destruct r as [a|]; [|discriminate]. rewrite read_some. destruct (nth_error h a) as [[d rs]|] eqn:Ea; [|discriminate].
    cbn [refs data]. intros E. destruct (every (map (read 2 h) rs)) as [ts|] eqn:Et; [|discriminate E]. cbn [option_map obind some] in E.
    destruct d; try discriminate E. destruct ts as [|o1 [|o2 [|o3 [|o4 [|? ?]]]]]; try discriminate E. cbn [vehicle_of] in E.
    spread Et. opened E. joined. do 5 eexists. split; [reflexivity|]. split; [exact Ea|].
    split; [now apply (leaf_iff DTime time_of time_is 1)|]. split; [now apply (leaf_iff DTime time_of time_is 1)|].
    split; [now apply reg_iff|now apply (leaf_iff DBcd bcd_of bcd_is 1)].
  - intros (a & f & l & g & c & -> & Ea & L1 & L2 & Rg & L3). rewrite read_some, Ea. cbn [refs data map].
    apply (leaf_iff DTime time_of time_is 1) in L1. apply (leaf_iff DTime time_of time_is 1) in L2. apply reg_iff in Rg.
    apply (leaf_iff DBcd bcd_of bcd_is 1) in L3.
    destruct (read 2 h f); [|discriminate L1]. destruct (read 2 h l); [|discriminate L2].
    destruct (read 2 h g); [|discriminate Rg]. destruct (read 2 h c); [|discriminate L3]. cbn [obind] in *.
    cbn [every option_map obind some vehicle_of vehicle_data]. rewrite L1, L2, Rg, L3. cbn [obind]. now destruct v.
Qed.

Definition reg_foot (h : heap) (g : ref) : list nat :=
  match g with
  | None => []
  | Some c => c :: match nth_error h c with Some (mkObj _ [s]) => ol s | _ => [] end
  end.

Lemma reg_foot_is h g o : reg_in h g o -> foot 2 h g = reg_foot h g.
Proof.
  destruct g as [c|]; [|reflexivity]. destruct o as [w|]; [|contradiction]. intros (s & E & L1).
  rewrite foot_some. cbn [reg_foot]. rewrite E. cbn [refs flat_map]. rewrite (leaf_foot DStr 0 h s _ L1). now rewrite app_nil_r.
Qed.

Lemma vehicle_foot h a d f l g c o1 o2 o3 o4 : nth_error h a = Some (mkObj d [f; l; g; c]) ->
  leaf DTime h f o1 -> leaf DTime h l o2 -> reg_in h g o3 -> leaf DBcd h c o4 ->
  foot 3 h (Some a) = a :: ol f ++ ol l ++ reg_foot h g ++ ol c.
Proof.
  intros E L1 L2 Rg L3. rewrite foot_some, E. cbn [refs flat_map].
  rewrite (leaf_foot DTime 1 h f o1 L1), (leaf_foot DTime 1 h l o2 L2), (reg_foot_is h g o3 Rg), (leaf_foot DBcd 1 h c o4 L3).
  now rewrite app_nil_r.
Qed.

Lemma reg_grow h e g o : reg_in h g o -> reg_in (h ++ e) g o /\ reg_foot (h ++ e) g = reg_foot h g.
Proof.
  destruct g as [c|], o as [w|]; cbn [reg_in reg_foot]; try contradiction; auto. intros (s & E & L1).
  rewrite nth_new by (apply nth_error_Some; congruence). rewrite E. split; [|reflexivity].
  exists s. split; [reflexivity|]. now apply leaf_grow.
Qed.

Lemma reg_store h a d rs o g x : nth_error h a = Some (mkObj d rs) ->
  (forall y, d <> DReg y) -> (forall y, d <> DStr y) -> reg_in h g x ->
  reg_in (store (Some a) o h) g x /\ reg_foot (store (Some a) o h) g = reg_foot h g.
Proof.
  intros Ea N1 N2. destruct g as [c|], x as [w|]; cbn [reg_in reg_foot]; try contradiction; auto. intros (s & E & L1).
  assert (Q : nth_error (store (Some a) o h) c = nth_error h c).
  { apply nth_store_neq; [apply nth_error_Some; congruence|]. intros <-. rewrite Ea in E. injection E as E _. exact (N1 _ E). }
  rewrite Q. split; [|reflexivity]. exists s. split; [exact E|]. exact (leaf_store DStr h a d rs o s _ Ea N2 L1).
Qed.

Lemma renew_vehicle_spec r v h : vehicle_at h r = Some v ->
  let h' := renew_at vehicle_at append_card_vehicle set_raw r h in
  vehicle_at h' r = Some (regenerate append_card_vehicle set_vehicle_raw v) /\ foot 3 h' r = foot 3 h r.
Proof.
  intros P. unfold renew_at. rewrite P. apply vehicle_iff in P as (a & f & l & g & c & -> & Ea & L1 & L2 & Rg & L3).
  cbn [fetch]. rewrite Ea. cbv zeta.
  assert (La : (a < length h)%nat) by (apply nth_error_Some; congruence). unfold regenerate.
  assert (P : vehicle_at h (Some a) = Some v) by (apply vehicle_iff; exists a, f, l, g, c; auto 10).
  destruct (append_card_vehicle v) as [b|e|]; [|split; [exact P|reflexivity] ..].
  cbn [data refs vehicle_data set_raw]. set (o := mkObj _ _).
  assert (L1' : leaf DTime (store (Some a) o h) f (cv_first_use v)) by (eapply leaf_store; [exact Ea|discriminate|exact L1]).
  assert (L2' : leaf DTime (store (Some a) o h) l (cv_last_use v)) by (eapply leaf_store; [exact Ea|discriminate|exact L2]).
  assert (L3' : leaf DBcd (store (Some a) o h) c (cv_counter v)) by (eapply leaf_store; [exact Ea|discriminate|exact L3]).
  destruct (reg_store h a _ _ o g _ Ea ltac:(discriminate) ltac:(discriminate) Rg) as [G' GF].
  assert (Eo : nth_error (store (Some a) o h) a = Some o) by now apply nth_store_eq.
  split; [apply vehicle_iff; exists a, f, l, g, c; split; [reflexivity|]; split; [exact Eo|auto 10]|].
  rewrite (vehicle_foot h a _ f l g c _ _ _ _ Ea L1 L2 Rg L3), <- GF. exact (vehicle_foot _ a _ f l g c _ _ _ _ Eo L1' L2' G' L3').
Qed.

(** The counter of a record *)
Definition counter_ref (h : heap) (r : ref) : list nat :=
  match fetch h r with Some (mkObj _ [_; _; _; c]) => ol c | _ => [] end.

Lemma anonymize_vehicle_step h0 i r v e : vehicle_at h0 r = Some v ->
  exists e', snd (anonymize_vehicle_h i r (h0 ++ e)) = (h0 ++ e) ++ e' /\
    let r' := fst (anonymize_vehicle_h i r (h0 ++ e)) in
    vehicle_at ((h0 ++ e) ++ e') r' = Some (anonymize_vehicle i v) /\
    filter (old (length h0)) (foot 3 ((h0 ++ e) ++ e') r') = counter_ref h0 r /\
    (forall b, In b (foot 3 ((h0 ++ e) ++ e') r') -> (b < length h0)%nat \/ (length (h0 ++ e) <= b)%nat) /\ True.
Proof.
  intros P. apply vehicle_iff in P as (a & f & l & g & c & -> & Ea & L1 & L2 & Rg & L3).
  assert (La : (a < length h0)%nat) by (apply nth_error_Some; congruence).
  unfold anonymize_vehicle_h. cbn [fetch]. rewrite (nth_new h0 e a La), Ea. cbn [vehicle_data new].
  set (H := h0 ++ e) in *. assert (Lh : (length h0 <= length H)%nat) by (unfold H; rewrite app_length; lia).
  set (x1 := mkObj (DTime (mkTs (TEST_EPOCH + i * 86400) 0)) []). set (x2 := mkObj (DTime (mkTs (TEST_EPOCH + i * 86400 + 86400 - 1) 0)) []).
  set (H2 := (H ++ [x1]) ++ [x2]).
  assert (Lf : leaf DTime H2 (Some (length H)) (Some (mkTs (TEST_EPOCH + i * 86400) 0))) by (unfold H2; apply leaf_grow, leaf_new).
  assert (Ll : leaf DTime H2 (Some (length (H ++ [x1]))) (Some (mkTs (TEST_EPOCH + i * 86400 + 86400 - 1) 0))) by (unfold H2; apply leaf_new).
  assert (Reg : exists e3 g', match fetch H2 g with
      | Some (mkObj (DReg n) _) =>
          (Some (length (H2 ++ [mkObj (DStr (test_string 13 "TEST-VRN")) []])),
           (H2 ++ [mkObj (DStr (test_string 13 "TEST-VRN")) []]) ++ [mkObj (DReg n) [Some (length H2)]])
      | _ => (None, H2)
      end = (g', H2 ++ e3) /\ reg_in (H2 ++ e3) g' (option_map anonymize_vreg (cv_reg v)) /\
      (forall b, In b (reg_foot (H2 ++ e3) g') -> (length H <= b)%nat)).
  { destruct g as [cg|], (cv_reg v) as [w|]; cbn [reg_in] in Rg; try contradiction.
    - destruct Rg as (s & Eg & Ls). assert (Lg : (cg < length h0)%nat) by (apply nth_error_Some; congruence).
      cbn [fetch]. unfold H2 at 1. rewrite !nth_new by (rewrite ?app_length; lia). unfold H at 1. rewrite (nth_new h0 e cg Lg), Eg.
      cbn [option_map reg_in]. set (z := mkObj (DStr _) []). set (q := mkObj (DReg _) _).
      exists [z; q], (Some (length (H2 ++ [z]))). split; [now rewrite <- app_assoc|].
      assert (Eq : nth_error (H2 ++ [z; q]) (length (H2 ++ [z])) = Some q).
      { replace (H2 ++ [z; q]) with ((H2 ++ [z]) ++ [q]) by (rewrite <- app_assoc; reflexivity). apply nth_last. }
      split; [exists (Some (length H2)); split; [exact Eq|apply nth_last]|].
      cbn [reg_foot]. rewrite Eq. intros b [<-|[<-|[]]]; unfold H2; rewrite !app_length; cbn; lia.
    - exists [], None. cbn. rewrite app_nil_r. split; [reflexivity|]. split; [exact I|intros b []]. }
  destruct Reg as (e3 & g' & Er & Rg' & Bg).
  match goal with |- context [fst (let (_, _) := ?X in _)] => replace X with (g', H2 ++ e3) by (symmetry; exact Er) end. clear Er. set (H3 := H2 ++ e3) in *. cbv beta iota.
  set (o := mkObj (DVehicle [] _ _) _).
  destruct (renew_last vehicle_at append_card_vehicle set_raw H3 o) as (o' & Eo). cbn [fst snd].
  assert (Lc : leaf DBcd (H3 ++ [o]) c (cv_counter v)) by (unfold H3, H2, H; rewrite <- !app_assoc; apply leaf_grow; exact L3).
  destruct (reg_grow H3 [o] g' _ Rg') as [Rg2 Fg2].
  assert (Lf2 : leaf DTime (H3 ++ [o]) (Some (length H)) (Some (mkTs (TEST_EPOCH + i * 86400) 0))) by (unfold H3; do 2 apply leaf_grow; exact Lf).
  assert (Ll2 : leaf DTime (H3 ++ [o]) (Some (length (H ++ [x1]))) (Some (mkTs (TEST_EPOCH + i * 86400 + 86400 - 1) 0))) by (unfold H3; do 2 apply leaf_grow; exact Ll).
  set (w := mkCV [] (Z.quot (cv_odo_begin v) 1000 * 1000) (Z.quot (cv_odo_end v) 1000 * 1000)
          (Some (mkTs (TEST_EPOCH + i * 86400) 0)) (Some (mkTs (TEST_EPOCH + i * 86400 + 86400 - 1) 0))
          (option_map anonymize_vreg (cv_reg v)) (cv_counter v)).
  assert (Pw : vehicle_at (H3 ++ [o]) (Some (length H3)) = Some w).
  { apply vehicle_iff. do 5 eexists. split; [reflexivity|]. split; [apply nth_last|]. split; [exact Lf2|]. split; [exact Ll2|].
    split; [exact Rg2|exact Lc]. }
  destruct (renew_vehicle_spec _ w (H3 ++ [o]) Pw) as (Pn & Ft).
  rewrite Eo in *.
  exists ([x1; x2] ++ e3 ++ [o']).
  assert (EH : H ++ [x1; x2] ++ e3 ++ [o'] = H3 ++ [o']) by (unfold H3, H2; rewrite <- !app_assoc; reflexivity).
  rewrite EH. split; [reflexivity|]. split; [exact Pn|].
  rewrite Ft, (vehicle_foot _ _ _ _ _ g' c _ _ _ _ (nth_last H3 o []) Lf2 Ll2 Rg2 Lc), Fg2. cbn [ol List.app].
  assert (Lcs : forall b, In b (ol c) -> (b < length h0)%nat) by now apply (leaf_old DBcd h0 c (cv_counter v)).
  assert (L3' : (length H <= length H3)%nat) by (unfold H3, H2; rewrite !app_length; lia).
  split; [|split; [|exact I]].
  - rewrite !old_new by (rewrite ?app_length; lia). rewrite old_app, (old_all _ _ Lcs).
    rewrite (old_none (length h0) (reg_foot H3 g')) by (intros b Ib; specialize (Bg b Ib); lia).
    unfold counter_ref. cbn [fetch List.app]. now rewrite Ea.
  - intros b [<-|[<-|[<-|Ib]]]; try (right; rewrite ?app_length; lia).
    apply in_app_or in Ib as [Ib|Ib]; [right; now apply Bg|left; now apply Lcs].
Qed.

Lemma vehicles_iff h x v : vehicles_at h x = Some v <->
  exists a rs, x = Some a /\ nth_error h a = Some (mkObj (DVehicles (vs_raw v) (vs_newest v)) rs) /\
    Forall2 (fun r p => vehicle_at h r = Some p) rs (vs_records v).
Proof.
  split.
  - intros E. apply value_read in E as ([d ts] & R & E). destruct d; try discriminate E. cbn [vehicles_of] in E.
    destruct (every (map (some vehicle_of) ts)) as [vs|] eqn:Ev; [|discriminate E]. injection E as <-. cbn [vs_raw vs_newest vs_records].
    exact (file_read vehicle_of h x _ ts vs R Ev).
  - intros (a & rs & -> & E & Fa). destruct (read_file vehicle_of h a _ rs _ E Fa) as (ts & R & Ev).
    unfold vehicles_at, value. rewrite R. cbn [obind some vehicles_of]. rewrite Ev. now destruct v.
Qed.

Lemma old_flat n {A} (f : A -> list nat) l : filter (old n) (flat_map f l) = flat_map (fun a => filter (old n) (f a)) l.
Proof. induction l as [|a l IH]; [reflexivity|]. cbn [flat_map]. now rewrite old_app, IH. Qed.

Lemma anonymize_vehicles_spec h0 x v : vehicles_at h0 x = Some v ->
  let y := fst (anonymize_vehicles_h x h0) in let h' := snd (anonymize_vehicles_h x h0) in
  vehicles_at h' y = Some (anonymize_vehicles v) /\
  (forall b, (b < length h0)%nat -> nth_error h' b = nth_error h0 b) /\
  exists rs d, fetch h0 x = Some (mkObj d rs) /\ filter (old (length h0)) (foot 4 h' y) = flat_map (counter_ref h0) rs.
Proof.
  intros P. apply vehicles_iff in P as (a & rs & -> & Ea & Fa). set (n := length h0). unfold anonymize_vehicles_h. cbn [fetch]. rewrite Ea. cbn [new].
  fold n. set (y0 := mkObj (DVehicles [] (vs_newest v)) []).
  destruct (collect_spec 3 n vehicle_of vehicle_of anonymize_vehicle_h anonymize_vehicle (counter_ref h0)
              (fun _ _ => True) h0 eq_refl (fun _ _ _ _ q => q) (anonymize_vehicle_step h0) rs (vs_records v) 0 [y0] Fa)
    as (e1 & E1 & V1 & S1 & _ & B1 & _).
  destruct (collect anonymize_vehicle_h 0 rs (h0 ++ [y0])) as [rs1 h1]. cbn [fst snd] in *. subst h1.
  rewrite app_length in B1. cbn [length] in B1. fold n in B1.
  set (o := mkObj (DVehicles [] (vs_newest v)) rs1).
  replace ((h0 ++ [y0]) ++ e1) with (h0 ++ y0 :: e1) in * by (rewrite <- app_assoc; reflexivity).
  pose proof (store_last h0 e1 o y0) as St. fold n in St. rewrite St. clear St. cbv zeta. set (h1 := h0 ++ y0 :: e1) in *. set (h2 := h0 ++ o :: e1).
  assert (Ne : forall b, b <> n -> nth_error h2 b = nth_error h1 b).
  { intros b Nb. unfold h1, h2. destruct (Nat.lt_ge_cases b n) as [L|L]; [now rewrite !nth_new by exact L|].
    rewrite !nth_error_app2 by exact L. destruct (b - length h0)%nat eqn:Q; [fold n in Q; lia|reflexivity]. }
  assert (Nn : forall r, In r rs1 -> ~ In n (foot 3 h1 r)) by (intros r Ir In1; destruct (B1 r n Ir In1); lia).
  assert (Fr : forall r b, In r rs1 -> In b (foot 3 h1 r) -> nth_error h2 b = nth_error h1 b).
  { intros r b Ir Ib. apply Ne. intros ->. exact (Nn r Ir Ib). }
  pose proof (forall2_frame vehicle_of h1 h2 rs1 _ Fr V1) as V2.
  assert (Ft2 : forall r, In r rs1 -> foot 3 h2 r = foot 3 h1 r) by (intros r Ir; apply frame; intros b; now apply Fr).
  assert (N2 : forall r, In r rs1 -> ~ In n (foot 3 h2 r)) by (intros r Ir; rewrite (Ft2 r Ir); now apply Nn).
  assert (E2 : nth_error h2 n = Some o) by apply nth_last.
  set (w := mkVeh [] (vs_newest v) (mapi anonymize_vehicle (vs_records v))).
  assert (W : vehicles_at h2 (Some n) = Some w).
  { apply vehicles_iff. exists n, rs1. split; [reflexivity|]. split; [exact E2|exact V2]. }
  destruct (finish vehicle_of vehicles_at (fun p => append_vehicles (Some p)) set_raw h2 n _ rs1 _ w E2 V2 N2 W) as (E5 & V5 & C5 & F5 & L5).
  set (h5 := renew_at vehicles_at (fun p => append_vehicles (Some p)) set_raw (Some n) h2) in *.
  split; [|split].
  - apply vehicles_iff. exists n, rs1. split; [reflexivity|]. unfold anonymize_vehicles. fold w. unfold regenerate.
    destruct (append_vehicles (Some w)); split; first [exact E5|exact V5].
  - intros b Lb. fold n in Lb. rewrite C5 by lia. unfold h2. now apply nth_new.
  - exists rs. eexists. split; [reflexivity|]. rewrite (file_foot h5 n _ rs1 E5), F5. rewrite old_new by lia.
    rewrite (foots_frame h1 h2 rs1 Fr), old_flat. clear - S1. induction S1 as [|r r' rs rs' S0 S1 IH]; [reflexivity|].
    cbn [flat_map]. now rewrite S0, IH.
Qed.

(** ** Identification *)

Definition ext (h h' : heap) : Prop := exists e, h' = h ++ e.

Lemma ext_new h o : ext h (h ++ [o]). Proof. now exists [o]. Qed.
Lemma ext_refl h : ext h h. Proof. exists []. now rewrite app_nil_r. Qed.
Lemma ext_trans h1 h2 h3 : ext h1 h2 -> ext h2 h3 -> ext h1 h3.
Proof. intros (e & ->) (e' & ->). exists (e ++ e'). now rewrite app_assoc. Qed.
Lemma ext_le h h' : ext h h' -> (length h <= length h')%nat.
Proof. intros (e & ->). rewrite app_length. lia. Qed.
Lemma ext_nth h h' c o : ext h h' -> nth_error h c = Some o -> nth_error h' c = Some o.
Proof. intros (e & ->) E. rewrite nth_new; [exact E|]. apply nth_error_Some. congruence. Qed.

(** A message below another, what it is worth, and what it reaches below [n] *)
Definition part {X} (n f : nat) (xof : tree -> option X) (h : heap) (r : ref) (o : option X) (s : list nat) : Prop :=
  exists t, read f h r = Some t /\ opt xof t = Some o /\ filter (old n) (foot f h r) = s.

Lemma part_ext {X} n f (xof : tree -> option X) h h' r o s : ext h h' -> part n f xof h r o s -> part n f xof h' r o s.
Proof.
  intros (e & ->) (t & R & O & Q). destruct (grow f h e r t R) as [R' F']. exists t. now rewrite R', F'.
Qed.

Lemma part_leaf {X} n f (xof : tree -> option X) h d x : (n <= length h)%nat -> xof (Tree d []) = Some x ->
  part n (S f) xof (h ++ [mkObj d []]) (Some (length h)) (Some x) [].
Proof.
  intros L E. exists (Some (Tree d [])). rewrite read_some, foot_some, nth_last. cbn [refs data map every option_map flat_map opt].
  rewrite E. split; [reflexivity|]. split; [reflexivity|]. now rewrite old_new.
Qed.

Lemma part_old {X} f (xof : tree -> option X) h0 h r o : ext h0 h -> obind (read f h0 r) (opt xof) = Some o ->
  part (length h0) f xof h r o (foot f h0 r).
Proof.
  intros Eh E. apply part_ext with h0; [exact Eh|]. destruct (read f h0 r) as [t|] eqn:R; [|discriminate E]. exists t.
  split; [exact R|]. split; [exact E|]. apply old_all. intros b Ib. exact (inside f h0 r t R b Ib).
Qed.

Lemma part_nil {X} n f (xof : tree -> option X) h : part n f xof h None None [].
Proof. exists None. destruct f; now repeat split. Qed.

Lemma part_node {X} n f (xof : tree -> option X) h d rs ts x s : (n <= length h)%nat ->
  every (map (read f h) rs) = Some ts -> xof (Tree d ts) = Some x -> filter (old n) (flat_map (foot f h) rs) = s ->
  part n (S f) xof (h ++ [mkObj d rs]) (Some (length h)) (Some x) s.
Proof.
  intros L Et Ex Es. exists (Some (Tree d ts)).
  assert (G : forall r, In r rs -> read f (h ++ [mkObj d rs]) r = read f h r /\ foot f (h ++ [mkObj d rs]) r = foot f h r).
  { intros r Ir. assert (exists t, read f h r = Some t) as (t & Rt).
    { clear - Et Ir. revert ts Et. induction rs as [|q rs IH]; intros ts Et; [destruct Ir|]. cbn [map] in Et.
      apply every_cons in Et as (a & l & E1 & E2 & _). destruct Ir as [->|Ir]; [eauto|exact (IH Ir _ E2)]. }
    destruct (grow f h [mkObj d rs] r t Rt) as [A B]. now rewrite A, B. }
  rewrite read_some, foot_some, nth_last. cbn [refs data].
  rewrite (map_ext_in_every _ (read f h) rs (fun r Ir => proj1 (G r Ir))), Et. cbn [option_map opt]. rewrite Ex.
  split; [reflexivity|]. split; [reflexivity|]. rewrite old_new by exact L. rewrite <- Es. f_equal.
  clear - G. revert G. generalize (h ++ [mkObj d rs]). intros h' G.
  induction rs as [|q rs IH]; [reflexivity|]. cbn [flat_map]. rewrite (proj2 (G q (or_introl eq_refl))).
  f_equal. apply IH. intros r Ir. exact (G r (or_intror Ir)).
Qed.

(** The messages of the source *)
Ltac source E :=
  match type of E with
  | obind (read _ ?h ?r) (opt ?xof) = Some ?o =>
      destruct r as [?c|]; [rewrite read_some in E; destruct (nth_error h c) as [[?d ?rs]|] eqn:?Ec; [|discriminate E]; cbn [refs data] in E;
        let Et := fresh "Et" in
        destruct (every (map (read _ h) rs)) as [?ts|] eqn:Et; [|discriminate E]; cbn [option_map obind opt] in E
      |cbn in E; injection E as <-]
  end.

Ltac exts := repeat first [apply ext_refl | eassumption | eapply ext_trans; [|apply ext_new]].

Ltac take P :=
  let t := fresh "t" in let R := fresh "R" in let O := fresh "O" in let Q := fresh "Q" in destruct P as (t & R & O & Q).

(** The last object, of the parts that are hypotheses *)
Ltac node :=
  eapply part_node; [ | cbn [map every]; repeat match goal with R : read _ ?h ?r = Some _ |- context [read _ ?h ?r] => rewrite R end; reflexivity
                    | cbn; repeat match goal with O : opt _ _ = Some _ |- _ => rewrite O; cbn [obind]; clear O end; reflexivity
                    | cbn [flat_map]; rewrite ?old_app; repeat match goal with Q : filter _ _ = _ |- _ => rewrite Q; clear Q end;
                      rewrite ?app_nil_r; reflexivity ].

Definition owner_refs (h : heap) (r : ref) : list nat :=
  match fetch h r with Some (mkObj _ [_; b; c; d]) => ol b ++ ol c ++ ol d | _ => [] end.

(** The last pointer of a holder *)
Definition language_ref (h : heap) (r : ref) : list nat :=
  match fetch h r with Some (mkObj _ rs) => ol (last rs None) | _ => [] end.

Lemma foot_leaf {X} (mk : X -> payload) (xof : tree -> option X) (is : forall t x, xof t = Some x <-> t = Tree (mk x) []) f h r o :
  obind (read (S f) h r) (opt xof) = Some o -> foot (S f) h r = ol r.
Proof. intros E. apply (leaf_iff mk xof is f) in E. exact (leaf_foot mk f h r o E). Qed.

Lemma anonymize_driver_part h0 h r o : ext h0 h -> obind (read 2 h0 r) (opt driver_of) = Some o ->
  exists r' h', anonymize_driver_h r h = (r', h') /\ ext h h' /\
    part (length h0) 2 driver_of h' r' (option_map anonymize_driver_number o) [].
Proof.
  intros Eh E. pose proof (ext_le _ _ Eh) as Le. unfold anonymize_driver_h. source E.
  2: { cbn. do 2 eexists. split; [reflexivity|]. split; [apply ext_refl|apply part_nil]. }
  destruct (driver_of (Tree d ts)) as [w|] eqn:Ew; [|discriminate E]. injection E as <-.
  destruct d; try discriminate Ew. cbn [fetch]. rewrite (ext_nth _ _ _ _ Eh Ec). cbn [new].
  set (n1 := mkObj (DIa5 _) []). set (n2 := mkObj DDriver _).
  do 2 eexists. split; [reflexivity|]. split; [exts|].
  assert (P1 : part (length h0) 1 ia5_of (h ++ [n1]) (Some (length h)) (Some (test_ia5 14 "DRIVER00000001")) []) by (apply part_leaf; [exact Le|reflexivity]).
  take P1. unfold n2. cbn [option_map]. eapply part_node.
  - rewrite app_length; lia.
  - cbn [map every]. rewrite R. reflexivity.
  - cbn [driver_of]. rewrite O. reflexivity.
  - cbn [flat_map]. rewrite old_app, Q. reflexivity.
Qed.

Lemma anonymize_owner_part h0 h r o : ext h0 h -> obind (read 2 h0 r) (opt owner_of) = Some o ->
  exists r' h', anonymize_owner_h r h = (r', h') /\ ext h h' /\
    part (length h0) 2 owner_of h' r' (option_map anonymize_owner o) (owner_refs h0 r).
Proof.
  intros Eh E. pose proof (ext_le _ _ Eh) as Le. unfold anonymize_owner_h. source E.
  2: { cbn. do 2 eexists. split; [reflexivity|]. split; [apply ext_refl|apply part_nil]. }
  destruct (owner_of (Tree d ts)) as [w|] eqn:Ew; [|discriminate E]. injection E as <-.
  destruct d; try discriminate Ew. destruct ts as [|? [|? [|? [|? [|? ?]]]]]; try discriminate Ew. cbn [owner_of] in Ew.
  spread Et. opened Ew. joined. cbn [fetch]. unfold owner_refs. cbn [fetch]. rewrite Ec, (ext_nth _ _ _ _ Eh Ec). cbn [new].
  set (n1 := mkObj (DIa5 _) []). set (n2 := mkObj DOwner _).
  do 2 eexists. split; [reflexivity|]. split; [exts|].
  assert (P1 : part (length h0) 1 ia5_of (h ++ [n1]) (Some (length h)) (Some (test_ia5 13 "OWNER00000001")) []) by (apply part_leaf; [exact Le|reflexivity]).
  assert (Ex : ext h0 (h ++ [n1])) by exts.
  repeat match goal with
  | J : obind (read 1 h0 ?q) (opt ia5_of) = Some ?v |- _ =>
      pose proof (part_old 1 ia5_of h0 _ q v Ex J); apply (foot_leaf DIa5 ia5_of ia5_is 0) in J
  end.
  repeat match goal with J : foot 1 h0 _ = _ |- _ => rewrite J in *; clear J end.
  repeat match goal with P : part _ _ _ _ _ _ _ |- _ => take P end.
  unfold n2. cbn [option_map]. node. rewrite app_length; lia.
Qed.


Lemma anonymize_holder_part h0 h r o : ext h0 h -> obind (read 3 h0 r) (opt holder_of) = Some o ->
  exists r' h', anonymize_holder_h r h = (r', h') /\ ext h h' /\
    part (length h0) 3 holder_of h' r' (option_map anonymize_driver_holder o) (language_ref h0 r).
Proof.
  intros Eh E. pose proof (ext_le _ _ Eh) as Le. unfold anonymize_holder_h. source E.
  2: { cbn. do 2 eexists. split; [reflexivity|]. split; [apply ext_refl|apply part_nil]. }
  destruct (holder_of (Tree d ts)) as [w|] eqn:Ew; [|discriminate E]. injection E as <-.
  destruct d; try discriminate Ew. destruct ts as [|? [|? [|? [|? [|? ?]]]]]; try discriminate Ew. cbn [holder_of] in Ew.
  spread Et. opened Ew. joined. cbn [fetch]. unfold language_ref. cbn [fetch]. rewrite Ec, (ext_nth _ _ _ _ Eh Ec). cbn [last].
  unfold new_str, new. cbv beta iota.
  set (h1 := h ++ [_]). set (h2 := h1 ++ [_]). set (h3 := h2 ++ [_]).
  assert (L1 : (length h0 <= length h1)%nat) by (unfold h1; rewrite app_length; lia).
  assert (L2 : (length h0 <= length h2)%nat) by (unfold h2; rewrite app_length; lia).
  assert (L3 : (length h0 <= length h3)%nat) by (unfold h3; rewrite app_length; lia).
  pose proof (part_leaf (length h0) 1 str_of h (DStr (test_string 35 "TEST_SURNAME")) _ Le eq_refl) as P1.
  pose proof (part_leaf (length h0) 1 str_of h1 (DStr (test_string 35 "TEST_FIRSTNAME")) _ L1 eq_refl) as P2.
  pose proof (part_leaf (length h0) 1 date_of h2 (DDate test_birth) _ L2 eq_refl) as P3.
  fold h1 in P1. fold h2 in P2. fold h3 in P3.
  assert (X12 : ext h1 h2) by apply ext_new. assert (X23 : ext h2 h3) by apply ext_new. assert (X01 : ext h h1) by apply ext_new.
  apply (part_ext _ _ _ h1 h3) in P1; [|exact (ext_trans _ _ _ X12 X23)]. apply (part_ext _ _ _ h2 h3) in P2; [|exact X23].
  assert (X03 : ext h h3) by exact (ext_trans _ _ _ X01 (ext_trans _ _ _ X12 X23)).
  match goal with J : obind (read 2 h0 ?q) (opt ia5_of) = Some ?v |- _ =>
    pose proof (part_old 2 ia5_of h0 h3 q v (ext_trans _ _ _ Eh X03) J) as P4; apply (foot_leaf DIa5 ia5_of ia5_is 1) in J; rewrite J in P4 end.
  clearbody h1 h2 h3.
  do 2 eexists. split; [reflexivity|]. split; [exact (ext_trans _ _ _ X03 (ext_new _ _))|].
  take P1. take P2. take P3. take P4. cbn [option_map]. node. exact L3.
Qed.

Lemma anonymize_body_part name h0 h r o : ext h0 h -> obind (read 3 h0 r) (opt body_of) = Some o ->
  exists r' h', anonymize_body_h name r h = (r', h') /\ ext h h' /\
    part (length h0) 3 body_of h' r' (option_map (anonymize_body_holder name) o) (language_ref h0 r).
Proof.
  intros Eh E. pose proof (ext_le _ _ Eh) as Le. unfold anonymize_body_h. source E.
  2: { cbn. do 2 eexists. split; [reflexivity|]. split; [apply ext_refl|apply part_nil]. }
  destruct (body_of (Tree d ts)) as [w|] eqn:Ew; [|discriminate E]. injection E as <-.
  destruct d; try discriminate Ew. destruct ts as [|? [|? [|? [|? [|? [|? ?]]]]]]; try discriminate Ew. cbn [body_of] in Ew.
  spread Et. opened Ew. joined. cbn [fetch]. unfold language_ref. cbn [fetch]. rewrite Ec, (ext_nth _ _ _ _ Eh Ec). cbn [last].
  unfold new_str, new. cbv beta iota.
  set (h1 := h ++ [_]). set (h2 := h1 ++ [_]). set (h3 := h2 ++ [_]). set (h4 := h3 ++ [_]).
  assert (L1 : (length h0 <= length h1)%nat) by (unfold h1; rewrite app_length; lia).
  assert (L2 : (length h0 <= length h2)%nat) by (unfold h2; rewrite app_length; lia).
  assert (L3 : (length h0 <= length h3)%nat) by (unfold h3; rewrite app_length; lia).
  assert (L4 : (length h0 <= length h4)%nat) by (unfold h4; rewrite app_length; lia).
  pose proof (part_leaf (length h0) 1 str_of h (DStr (test_string 35 name)) _ Le eq_refl) as P1.
  pose proof (part_leaf (length h0) 1 str_of h1 (DStr (test_string 35 "TEST_ADDRESS")) _ L1 eq_refl) as P2.
  pose proof (part_leaf (length h0) 1 str_of h2 (DStr (test_string 35 "TEST_SURNAME")) _ L2 eq_refl) as P3.
  pose proof (part_leaf (length h0) 1 str_of h3 (DStr (test_string 35 "TEST_FIRSTNAME")) _ L3 eq_refl) as P4.
  fold h1 in P1. fold h2 in P2. fold h3 in P3. fold h4 in P4.
  assert (X01 : ext h h1) by apply ext_new. assert (X12 : ext h1 h2) by apply ext_new.
  assert (X23 : ext h2 h3) by apply ext_new. assert (X34 : ext h3 h4) by apply ext_new.
  pose proof (ext_trans _ _ _ X23 X34) as X24. pose proof (ext_trans _ _ _ X12 X24) as X14. pose proof (ext_trans _ _ _ X01 X14) as X04.
  apply (part_ext _ _ _ h1 h4) in P1; [|exact X14]. apply (part_ext _ _ _ h2 h4) in P2; [|exact X24]. apply (part_ext _ _ _ h3 h4) in P3; [|exact X34].
  match goal with J : obind (read 2 h0 ?q) (opt str_of) = Some (bh_language _) |- _ => idtac | J : obind (read 2 h0 ?q) (opt str_of) = Some ?v |- context [ol ?q] =>
    pose proof (part_old 2 str_of h0 h4 q v (ext_trans _ _ _ Eh X04) J) as P5; apply (foot_leaf DStr str_of str_is 1) in J; rewrite J in P5 end.
  clearbody h1 h2 h3 h4.
  do 2 eexists. split; [reflexivity|]. split; [exact (ext_trans _ _ _ X04 (ext_new _ _))|].
  take P1. take P2. take P3. take P4. take P5. cbn [option_map]. node. exact L4.
Qed.

Lemma anonymize_company_part h0 h r o : ext h0 h -> obind (read 3 h0 r) (opt company_of) = Some o ->
  exists r' h', anonymize_company_h r h = (r', h') /\ ext h h' /\
    part (length h0) 3 company_of h' r' (option_map anonymize_company_holder o) (language_ref h0 r).
Proof.
  intros Eh E. pose proof (ext_le _ _ Eh) as Le. unfold anonymize_company_h. source E.
  2: { cbn. do 2 eexists. split; [reflexivity|]. split; [apply ext_refl|apply part_nil]. }
  destruct (company_of (Tree d ts)) as [w|] eqn:Ew; [|discriminate E]. injection E as <-.
  destruct d; try discriminate Ew. destruct ts as [|? [|? [|? [|? ?]]]]; try discriminate Ew. cbn [company_of] in Ew.
  spread Et. opened Ew. joined. cbn [fetch]. unfold language_ref. cbn [fetch]. rewrite Ec, (ext_nth _ _ _ _ Eh Ec). cbn [last].
  unfold new_str, new. cbv beta iota.
  set (h1 := h ++ [_]). set (h2 := h1 ++ [_]).
  assert (L1 : (length h0 <= length h1)%nat) by (unfold h1; rewrite app_length; lia).
  assert (L2 : (length h0 <= length h2)%nat) by (unfold h2; rewrite app_length; lia).
  pose proof (part_leaf (length h0) 1 str_of h (DStr (test_string 35 "TEST_COMPANY")) _ Le eq_refl) as P1.
  pose proof (part_leaf (length h0) 1 str_of h1 (DStr (test_string 35 "TEST_ADDRESS")) _ L1 eq_refl) as P2.
  fold h1 in P1. fold h2 in P2.
  assert (X01 : ext h h1) by apply ext_new. assert (X12 : ext h1 h2) by apply ext_new. pose proof (ext_trans _ _ _ X01 X12) as X02.
  apply (part_ext _ _ _ h1 h2) in P1; [|exact X12].
  match goal with J : obind (read 2 h0 ?q) (opt str_of) = Some ?v |- context [ol ?q] =>
    pose proof (part_old 2 str_of h0 h2 q v (ext_trans _ _ _ Eh X02) J) as P5; apply (foot_leaf DStr str_of str_is 1) in J; rewrite J in P5 end.
  clearbody h1 h2.
  do 2 eexists. split; [reflexivity|]. split; [exact (ext_trans _ _ _ X02 (ext_new _ _))|].
  take P1. take P2. take P5. cbn [option_map]. node. exact L2.
Qed.

Definition card_refs (h : heap) (r : ref) : list nat :=
  match fetch h r with Some (mkObj _ [_; o; _; _; _; _]) => owner_refs h o | _ => [] end.

Lemma anonymize_card_step h0 h r o : ext h0 h -> obind (read 3 h0 r) (opt card_of) = Some o ->
  exists r' h', anonymize_card_h r h = (r', h') /\ ext h h' /\
    part (length h0) 3 card_of h' r' (option_map anonymize_card_part o) (card_refs h0 r).
Proof.
  intros Eh E. unfold anonymize_card_h. source E.
  2: { cbn. do 2 eexists. split; [reflexivity|]. split; [apply ext_refl|apply part_nil]. }
  destruct (card_of (Tree d ts)) as [w|] eqn:Ew; [|discriminate E]. injection E as <-.
  destruct d; try discriminate Ew. destruct ts as [|? [|? [|? [|? [|? [|? [|? ?]]]]]]]; try discriminate Ew. cbn [card_of] in Ew.
  spread Et. opened Ew. joined. cbn [fetch]. unfold card_refs. cbn [fetch]. rewrite Ec, (ext_nth _ _ _ _ Eh Ec).
  match goal with J : obind (read 2 h0 ?q) (opt driver_of) = Some _ |- _ => destruct (anonymize_driver_part h0 h q _ Eh J) as (d' & ha & -> & Xa & Pa) end.
  pose proof (ext_trans _ _ _ Eh Xa) as Ea.
  match goal with J : obind (read 2 h0 ?q) (opt owner_of) = Some _ |- _ => destruct (anonymize_owner_part h0 ha q _ Ea J) as (o' & hb & -> & Xb & Pb) end.
  pose proof (ext_trans _ _ _ Ea Xb) as Eb. pose proof (ext_le _ _ Eb) as Le.
  unfold new_str, new_time, new. cbv beta iota.
  set (h1 := hb ++ [_]). set (h2 := h1 ++ [_]). set (h3 := h2 ++ [_]). set (h4 := h3 ++ [_]).
  assert (L1 : (length h0 <= length h1)%nat) by (unfold h1; rewrite app_length; lia).
  assert (L2 : (length h0 <= length h2)%nat) by (unfold h2; rewrite app_length; lia).
  assert (L3 : (length h0 <= length h3)%nat) by (unfold h3; rewrite app_length; lia).
  assert (L4 : (length h0 <= length h4)%nat) by (unfold h4; rewrite app_length; lia).
  pose proof (part_leaf (length h0) 1 str_of hb (DStr (test_string 35 "TEST_AUTHORITY")) _ Le eq_refl) as P1.
  pose proof (part_leaf (length h0) 1 time_of h1 (DTime (mkTs 1577836800 0)) _ L1 eq_refl) as P2.
  pose proof (part_leaf (length h0) 1 time_of h2 (DTime (mkTs 1577836800 0)) _ L2 eq_refl) as P3.
  pose proof (part_leaf (length h0) 1 time_of h3 (DTime (mkTs 1735689599 0)) _ L3 eq_refl) as P4.
  fold h1 in P1. fold h2 in P2. fold h3 in P3. fold h4 in P4.
  assert (X01 : ext hb h1) by apply ext_new. assert (X12 : ext h1 h2) by apply ext_new.
  assert (X23 : ext h2 h3) by apply ext_new. assert (X34 : ext h3 h4) by apply ext_new.
  pose proof (ext_trans _ _ _ X23 X34) as X24. pose proof (ext_trans _ _ _ X12 X24) as X14. pose proof (ext_trans _ _ _ X01 X14) as X04.
  pose proof (ext_trans _ _ _ Xb X04) as Xa4. pose proof (ext_trans _ _ _ Xa Xa4) as Xh4.
  apply (part_ext _ _ _ h1 h4) in P1; [|exact X14]. apply (part_ext _ _ _ h2 h4) in P2; [|exact X24]. apply (part_ext _ _ _ h3 h4) in P3; [|exact X34].
  apply (part_ext _ _ _ ha h4) in Pa; [|exact Xa4]. apply (part_ext _ _ _ hb h4) in Pb; [|exact X04].
  clearbody h1 h2 h3 h4.
  do 2 eexists. split; [reflexivity|]. split; [exact (ext_trans _ _ _ Xh4 (ext_new _ _))|].
  take Pa. take Pb. take P1. take P2. take P3. take P4. cbn [option_map]. node. exact L4.
Qed.

(** What an anonymised identification has of the source *)
Definition ident_refs (h : heap) (x : ref) : list nat :=
  match fetch h x with
  | Some (mkObj (DIdent ty _ _) [c; d; w; k; m]) =>
      card_refs h c ++ (if ty =? CARD_TYPE_DRIVER then language_ref h d else [])
        ++ (if ty =? CARD_TYPE_WORKSHOP then language_ref h w else [])
        ++ (if ty =? CARD_TYPE_CONTROL then language_ref h k else [])
        ++ (if ty =? CARD_TYPE_COMPANY then language_ref h m else [])
  | _ => []
  end.

Lemma choose {X} n f (xof : tree -> option X) h (b : bool) a r' h' o s : 
  a = (r', h') -> ext h h' -> part n f xof h' r' o s ->
  exists r'' h'', (if b then a else (None, h)) = (r'', h'') /\ ext h h'' /\
    part n f xof h'' r'' (if b then o else None) (if b then s else []).
Proof.
  intros -> X1 P. destruct b; [exists r', h'; auto|]. exists None, h. split; [reflexivity|]. split; [apply ext_refl|apply part_nil].
Qed.

Lemma anonymize_ident_spec h0 x v : ident_at h0 x = Some v ->
  let y := fst (anonymize_ident_h x h0) in let h' := snd (anonymize_ident_h x h0) in
  ident_at h' y = Some (anonymize_identification v) /\
  (forall b, (b < length h0)%nat -> nth_error h' b = nth_error h0 b) /\
  filter (old (length h0)) (foot 4 h' y) = ident_refs h0 x.
Proof.
  intros P. unfold ident_at, value in P. unfold anonymize_ident_h, ident_refs. destruct x as [a|]; [|discriminate P].
  rewrite read_some in P. cbn [fetch]. destruct (nth_error h0 a) as [[d rs]|] eqn:Ea; [|discriminate P]. cbn [refs data] in P.
  destruct (every (map (read 3 h0) rs)) as [ts|] eqn:Et; [|discriminate P]. cbn [option_map obind some] in P.
  destruct d; try discriminate P. destruct ts as [|? [|? [|? [|? [|? [|? ?]]]]]]; try discriminate P. cbn [ident_of] in P.
  spread Et. opened P. joined. unfold anonymize_identification. cbn [fi_type fi_card fi_driver fi_workshop fi_control fi_company].
  match goal with J : obind (read 3 h0 ?q) (opt card_of) = Some _ |- _ =>
    destruct (anonymize_card_step h0 h0 q _ (ext_refl _) J) as (c' & ha & -> & Xa & Pa) end.
  match goal with J : obind (read 3 h0 ?q) (opt holder_of) = Some _ |- _ =>
    destruct (anonymize_holder_part h0 ha q _ Xa J) as (d' & hb & Eb & Xb & Pb) end.
  destruct (choose _ _ _ ha (type =? CARD_TYPE_DRIVER) _ _ _ _ _ Eb Xb Pb) as (d2 & hb2 & -> & Xb2 & Pb2). clear Eb Xb Pb.
  pose proof (ext_trans _ _ _ Xa Xb2) as X2. clear hb d'.
  match goal with J : obind (read 3 h0 ?q) (opt body_of) = Some ?o |- context [anonymize_body_h "TEST_WORKSHOP" ?q hb2] =>
    destruct (anonymize_body_part "TEST_WORKSHOP" h0 hb2 q _ X2 J) as (w' & hc & Ec & Xc & Pc) end.
  destruct (choose _ _ _ hb2 (type =? CARD_TYPE_WORKSHOP) _ _ _ _ _ Ec Xc Pc) as (w2 & hc2 & -> & Xc2 & Pc2). clear Ec Xc Pc.
  pose proof (ext_trans _ _ _ X2 Xc2) as X3. clear hc w'.
  match goal with J : obind (read 3 h0 ?q) (opt body_of) = Some ?o |- context [anonymize_body_h "TEST_CONTROL_BODY" ?q hc2] =>
    destruct (anonymize_body_part "TEST_CONTROL_BODY" h0 hc2 q _ X3 J) as (k' & hd & Ed & Xd & Pd) end.
  destruct (choose _ _ _ hc2 (type =? CARD_TYPE_CONTROL) _ _ _ _ _ Ed Xd Pd) as (k2 & hd2 & -> & Xd2 & Pd2). clear Ed Xd Pd.
  pose proof (ext_trans _ _ _ X3 Xd2) as X4. clear hd k'.
  match goal with J : obind (read 3 h0 ?q) (opt company_of) = Some ?o |- _ =>
    destruct (anonymize_company_part h0 hd2 q _ X4 J) as (m' & he & Ee & Xe & Pe) end.
  destruct (choose _ _ _ hd2 (type =? CARD_TYPE_COMPANY) _ _ _ _ _ Ee Xe Pe) as (m2 & he2 & -> & Xe2 & Pe2). clear Ee Xe Pe.
  pose proof (ext_trans _ _ _ X4 Xe2) as X5. clear he m'.
  pose proof (ext_trans _ _ _ Xd2 Xe2) as Y1. pose proof (ext_trans _ _ _ Xc2 Y1) as Y2. pose proof (ext_trans _ _ _ Xb2 Y2) as Y3.
  apply (part_ext _ _ _ ha he2) in Pa; [|exact Y3]. apply (part_ext _ _ _ hb2 he2) in Pb2; [|exact Y2].
  apply (part_ext _ _ _ hc2 he2) in Pc2; [|exact Y1]. apply (part_ext _ _ _ hd2 he2) in Pd2; [|exact Xe2].
  cbn [new fst snd]. set (h' := he2 ++ [_]).
  match goal with |- _ = Some ?V /\ _ =>
    assert (G : part (length h0) 4 ident_of h' (Some (length he2)) (Some V) (ident_refs h0 (Some a))) end.
  { unfold ident_refs. cbn [fetch]. rewrite Ea. take Pa. take Pb2. take Pc2. take Pd2. take Pe2. unfold h'. node. exact (ext_le _ _ X5). }
  destruct G as (t & R & O & Q). split; [|split].
  - unfold ident_at, value. rewrite R. cbn [obind]. destruct t as [t|]; [|discriminate O]. cbn [opt some obind] in *.
    destruct (ident_of t) as [f|]; [|discriminate O].
    exact (f_equal (fun z => match z with Some q => q | None => None end) O).
  - intros b Lb. destruct X5 as (e5 & E5). unfold h'. rewrite E5, <- app_assoc. now apply nth_new.
  - rewrite Q. unfold ident_refs. cbn [fetch]. now rewrite Ea.
Qed.
