(** Properties C118 and C119: anonymising leaves the original alone, and what the result
    shares with it. *)

From Coq Require Import String.
From Verif Require Import Base DDScalar DDString DDRecord CardRecords CardIdent Anonymize AnonHeap P_AnonHeap P_AnonSpec.
Local Open Scope list_scope.

(** ** C118 *)

(** Every message there was is as it was. *)
Definition untouched (h h' : heap) : Prop := forall a o, nth_error h a = Some o -> nth_error h' a = Some o.

Lemma untouched_of h h' : (forall b, (b < length h)%nat -> nth_error h' b = nth_error h b) -> untouched h h'.
Proof. intros H a o E. rewrite H; [exact E|]. apply nth_error_Some. congruence. Qed.

(** Anonymising a file makes a file that is worth what Anonymize.v says, and the original
    and all other messages stay as they are. *)
Theorem C118_anonymise_leaves_source :
  (forall h x v y h', places_at h x = Some v -> anonymize_places_h x h = (y, h') ->
     places_at h' y = Some (anonymize_places v) /\ untouched h h' /\ places_at h' x = Some v) /\
  (forall h x v y h', places2_at h x = Some v -> anonymize_places2_h x h = (y, h') ->
     places2_at h' y = Some (anonymize_places_g2 v) /\ untouched h h' /\ places2_at h' x = Some v) /\
  (forall h x v y h', vehicles_at h x = Some v -> anonymize_vehicles_h x h = (y, h') ->
     vehicles_at h' y = Some (anonymize_vehicles v) /\ untouched h h' /\ vehicles_at h' x = Some v) /\
  (forall h x v y h', ident_at h x = Some v -> anonymize_ident_h x h = (y, h') ->
     ident_at h' y = Some (anonymize_identification v) /\ untouched h h' /\ ident_at h' x = Some v).
Proof.
  assert (K : forall A (of : tree -> option A) h h' x v, value of 4 h x = Some v ->
    (forall b, (b < length h)%nat -> nth_error h' b = nth_error h b) -> value of 4 h' x = Some v).
  { intros A of h h' x v E H. rewrite (value_frame of 4 h h' x); [exact E|]. intros b Ib. apply H. exact (value_inside of 4 h x v E b Ib). }
  split; [|split; [|split]]; intros h x v y h' P E.
  - destruct (anonymize_places_spec h x v P) as (V & U & _). rewrite E in V, U. cbn [fst snd] in V, U.
    split; [exact V|]. split; [now apply untouched_of|]. exact (K _ _ _ _ _ _ P U).
  - destruct (anonymize_places2_spec h x v P) as (V & U & _). rewrite E in V, U. cbn [fst snd] in V, U.
    split; [exact V|]. split; [now apply untouched_of|]. exact (K _ _ _ _ _ _ P U).
  - destruct (anonymize_vehicles_spec h x v P) as (V & U & _). rewrite E in V, U. cbn [fst snd] in V, U.
    split; [exact V|]. split; [now apply untouched_of|]. exact (K _ _ _ _ _ _ P U).
  - destruct (anonymize_ident_spec h x v P) as (V & U & _). rewrite E in V, U. cbn [fst snd] in V, U.
    split; [exact V|]. split; [now apply untouched_of|]. exact (K _ _ _ _ _ _ P U).
Qed.

(** ** C119 *)

(** The messages reached from a pointer *)
Inductive reaches (h : heap) : ref -> nat -> Prop :=
| Here a : reaches h (Some a) a
| There a o r b : nth_error h a = Some o -> In r (refs o) -> reaches h r b -> reaches h (Some a) b.

Lemma every_in {A B} (g : A -> option B) l : forall r, every (map g l) = Some r -> forall a, In a l -> exists b, g a = Some b.
Proof.
  induction l as [|q l IH]; intros r E a Ia; [destruct Ia|]. cbn [map] in E. apply every_cons in E as (b & t & E1 & E2 & _).
  destruct Ia as [<-|Ia]; [eauto|exact (IH _ E2 a Ia)].
Qed.

Lemma reaches_foot f : forall h r t, read f h r = Some t -> forall b, reaches h r b <-> In b (foot f h r).
Proof.
  assert (U : forall h r b, reaches h r b -> forall f t, read f h r = Some t -> In b (foot f h r)).
  { intros h r b R. induction R as [a|a o r b E Ir R IH]; intros g t Et; [apply foot_head|].
    destruct g as [|g]; [discriminate Et|]. rewrite read_some, E in Et. rewrite foot_some, E. right.
    destruct (every (map (read g h) (refs o))) as [ts|] eqn:Ets; [|discriminate Et].
    destruct (every_in _ _ _ Ets r Ir) as (u & Eu). apply in_flat_map. exists r. split; [exact Ir|exact (IH g u Eu)]. }
  intros h r t Et b. split; [intros R; exact (U h r b R f t Et)|]. clear Et t. revert r. induction f as [|f IH]; intros r Ib.
  - destruct r as [a|]; [|destruct Ib]. destruct Ib as [<-|[]]. constructor.
  - destruct r as [a|]; [|destruct Ib]. rewrite foot_some in Ib. destruct Ib as [<-|Ib]; [constructor|].
    destruct (nth_error h a) as [o|] eqn:E; [|destruct Ib]. apply in_flat_map in Ib as (r & Ir & Ib). exact (There h a o r b E Ir (IH r Ib)).
Qed.

(** The vehicle counters of a file of vehicles *)
Definition counter_of (h : heap) (x : ref) (b : nat) : Prop :=
  exists d rs r d' f l g, fetch h x = Some (mkObj d rs) /\ In r rs /\ fetch h r = Some (mkObj d' [f; l; g; Some b]).

(** The consecutive, replacement and renewal index of the owner, and the language of the
    holder that goes with the type of the card *)
Definition owner_index_of (h : heap) (c : ref) (b : nat) : Prop :=
  exists d p o i j e f q k, fetch h c = Some (mkObj d [p; o; i; j; e; f]) /\ fetch h o = Some (mkObj DOwner (q :: k)) /\ In (Some b) k.

Definition language_of (h : heap) (r : ref) (b : nat) : Prop :=
  exists d rs, fetch h r = Some (mkObj d (rs ++ [Some b])).

Definition kept_of (h : heap) (x : ref) (b : nat) : Prop :=
  exists ty s v c d w k m, fetch h x = Some (mkObj (DIdent ty s v) [c; d; w; k; m]) /\
    (owner_index_of h c b \/
     exists r, In (ty, r) [(CARD_TYPE_DRIVER, d); (CARD_TYPE_WORKSHOP, w); (CARD_TYPE_CONTROL, k); (CARD_TYPE_COMPANY, m)] /\ language_of h r b).

(** The time of a place *)
Definition time_pointer_of (h : heap) (r : ref) (b : nat) : Prop := exists d, fetch h r = Some (mkObj d [Some b]).

Lemma in_old n l b : (b < n)%nat -> In b l <-> In b (filter (old n) l).
Proof. intros L. rewrite filter_In. unfold old. rewrite (proj2 (Nat.ltb_lt b n) L). tauto. Qed.

Lemma in_ol b r : In b (ol r) <-> r = Some b.
Proof. destruct r as [a|]; cbn; [|split; [tauto|discriminate]]. split; [intros [->|[]]; reflexivity|intros E; injection E as ->; auto]. Qed.

Lemma counter_ref_iff h rs b : In b (flat_map (counter_ref h) rs) <->
  exists r d f l g, In r rs /\ fetch h r = Some (mkObj d [f; l; g; Some b]).
Proof.
  rewrite in_flat_map. unfold counter_ref. split.
  - intros (r & Ir & Ib). destruct (fetch h r) as [[d rs']|] eqn:E; [|destruct Ib].
    destruct rs' as [|f [|l [|g [|c [|? ?]]]]]; try (destruct Ib; fail). apply in_ol in Ib. subst c. exists r, d, f, l, g. auto.
  - intros (r & d & f & l & g & Ir & E). exists r. split; [exact Ir|]. rewrite E. now left.
Qed.

Lemma owner_refs_iff h0 c o b : obind (read 3 h0 c) (opt card_of) = Some o -> In b (card_refs h0 c) <-> owner_index_of h0 c b.
Proof.
  intros E. unfold card_refs, owner_index_of, owner_refs. split.
  - intros Ib. destruct (fetch h0 c) as [[d rs]|] eqn:Ec; [|destruct Ib].
    destruct rs as [|p [|w [|i [|j [|e [|f [|? ?]]]]]]]; try (destruct Ib; fail).
    destruct (fetch h0 w) as [[d' rs']|] eqn:Ew; [|destruct Ib]. destruct rs' as [|q [|k1 [|k2 [|k3 [|? ?]]]]]; try (destruct Ib; fail).
    exists d, p, w, i, j, e, f, q, [k1; k2; k3]. split; [reflexivity|]. rewrite Ew.
    assert (d' = DOwner) as ->.
    { destruct c as [c|]; [|discriminate Ec]. cbn [fetch] in Ec. rewrite read_some, Ec in E. cbn [refs data map] in E.
      destruct w as [w|]; [|discriminate Ew]. cbn [fetch] in Ew.
      match type of E with context [every ?l] => destruct (every l) as [ts|] eqn:Et; [|discriminate E] end.
      apply every_cons in Et as (t1 & u1 & R1 & Et & ->). apply every_cons in Et as (t2 & u2 & R2 & Et & ->).
      rewrite read_some, Ew in R2. cbn [refs data] in R2. destruct (every (map (read 1 h0) [q; k1; k2; k3])) as [us|]; [|discriminate R2].
      injection R2 as <-. cbn [option_map obind opt card_of] in E. destruct d; try discriminate E.
      destruct u2 as [|? [|? [|? [|? [|? ?]]]]]; try discriminate E. cbn [card_of opt] in E.
      destruct (opt driver_of t1); [|discriminate E]. cbn [obind] in E. destruct d'; try discriminate E. reflexivity. }
    split; [reflexivity|]. rewrite !in_app_iff, !in_ol in Ib. cbn [In]. intuition.
  - intros (d & p & w & i & j & e & f & q & k & Ec & Ew & Ib). rewrite Ec, Ew.
    destruct c as [c|]; [|discriminate Ec]. cbn [fetch] in Ec. rewrite read_some, Ec in E. cbn [refs data map] in E.
    destruct w as [w|]; [|discriminate Ew]. cbn [fetch] in Ew.
    match type of E with context [every ?l] => destruct (every l) as [ts|] eqn:Et; [|discriminate E] end.
    apply every_cons in Et as (t1 & u1 & R1 & Et & ->). apply every_cons in Et as (t2 & u2 & R2 & Et & ->).
    rewrite read_some, Ew in R2. cbn [refs data] in R2. destruct (every (map (read 1 h0) (q :: k))) as [us|] eqn:Es; [|discriminate R2].
    injection R2 as <-. cbn [option_map obind opt card_of] in E. destruct d; try discriminate E.
    destruct u2 as [|? [|? [|? [|? [|? ?]]]]]; try discriminate E. cbn [card_of opt] in E.
    destruct (opt driver_of t1); [|discriminate E]. cbn [obind] in E.
    destruct us as [|? [|? [|? [|? [|? ?]]]]]; try discriminate E.
    cbn [map] in Es. apply every_cons in Es as (t3 & u3 & R3 & Es & Q). injection Q as <- <-. spread Es. cbv beta iota.
    rewrite !in_app_iff, !in_ol. cbn [In] in Ib. intuition.
Qed.

Lemma language_ref_iff h r b : In b (language_ref h r) <-> language_of h r b.
Proof.
  unfold language_ref, language_of. split.
  - destruct (fetch h r) as [[d rs]|]; [|intros []]. intros Ib. apply in_ol in Ib. exists d, (removelast rs). do 2 f_equal.
    rewrite <- Ib. apply app_removelast_last. intros ->. discriminate Ib.
  - intros (d & rs & ->). rewrite last_last. now left.
Qed.

Lemma ident_refs_iff h x v b : ident_at h x = Some v -> In b (ident_refs h x) <-> kept_of h x b.
Proof.
  intros P. unfold ident_refs, kept_of. split.
  - intros Ib. destruct (fetch h x) as [[d rs]|] eqn:E; [|destruct Ib]. destruct d; try (destruct Ib; fail).
    destruct rs as [|c [|d [|w [|k [|m [|? ?]]]]]]; try (destruct Ib; fail).
    exists type, signature, verified, c, d, w, k, m. split; [reflexivity|].
    destruct x as [a|]; [|discriminate E]. cbn [fetch] in E. unfold ident_at, value in P. rewrite read_some, E in P. cbn [refs data map] in P.
    match type of P with context [every ?l] => destruct (every l) as [ts|] eqn:Et; [|discriminate P] end.
    cbn [option_map obind some ident_of] in P. destruct ts as [|o1 [|? [|? [|? [|? [|? ?]]]]]]; try discriminate P.
    apply every_cons in Et as (t1 & u1 & R1 & _ & Q). injection Q as <- _. cbn [ident_of] in P.
    destruct (opt card_of o1) as [cv|] eqn:Oc; [|discriminate P].
    assert (J : obind (read 3 h c) (opt card_of) = Some cv) by (rewrite R1; exact Oc).
    rewrite !in_app_iff in Ib. destruct Ib as [Ib|Ib]; [left; now apply (owner_refs_iff h c cv)|right].
    destruct Ib as [Ib|[Ib|[Ib|Ib]]];
      match type of Ib with context [if type =? ?T then language_ref h ?r else _] =>
        destruct (Z.eqb_spec type T) as [->|_]; [|destruct Ib]; exists r; split; [cbn [In]; tauto|now apply language_ref_iff] end.
  - intros (ty & s & vf & c & d & w & k & m & E & K). rewrite E. rewrite !in_app_iff.
    destruct x as [a|]; [|discriminate E]. cbn [fetch] in E. unfold ident_at, value in P. rewrite read_some, E in P. cbn [refs data map] in P.
    match type of P with context [every ?l] => destruct (every l) as [ts|] eqn:Et; [|discriminate P] end.
    cbn [option_map obind some ident_of] in P. destruct ts as [|o1 [|? [|? [|? [|? [|? ?]]]]]]; try discriminate P.
    apply every_cons in Et as (t1 & u1 & R1 & _ & Q). injection Q as <- _. cbn [ident_of] in P.
    destruct (opt card_of o1) as [cv|] eqn:Oc; [|discriminate P].
    assert (J : obind (read 3 h c) (opt card_of) = Some cv) by (rewrite R1; exact Oc).
    destruct K as [K|(r & Ir & K)]; [left; now apply (owner_refs_iff h c cv)|right].
    apply language_ref_iff in K. destruct Ir as [Q|[Q|[Q|[Q|[]]]]]; injection Q as <- <-; rewrite Z.eqb_refl; tauto.
Qed.

(** What the anonymised file has in common with what there was: nothing for places, the
    vehicle counters for vehicles, the indices of the owner and the language of the holder
    for the identification.  A single place that is anonymised keeps the time (the file
    replaces it afterwards). *)
Theorem C119_shared_partial :
  (forall h x v y h' b, places_at h x = Some v -> anonymize_places_h x h = (y, h') ->
     (b < length h)%nat -> ~ reaches h' y b) /\
  (forall h x v y h' b, places2_at h x = Some v -> anonymize_places2_h x h = (y, h') ->
     (b < length h)%nat -> ~ reaches h' y b) /\
  (forall h x v y h' b, vehicles_at h x = Some v -> anonymize_vehicles_h x h = (y, h') ->
     (b < length h)%nat -> (reaches h' y b <-> counter_of h x b)) /\
  (forall h x v y h' b, ident_at h x = Some v -> anonymize_ident_h x h = (y, h') ->
     (b < length h)%nat -> (reaches h' y b <-> kept_of h x b)) /\
  (forall h x v y h' b, place_at h x = Some v -> anonymize_place_h x h = (y, h') ->
     (b < length h)%nat -> (reaches h' y b <-> time_pointer_of h x b)).
Proof.
  assert (K : forall A (of : tree -> option A) f h x v, value of f h x = Some v -> forall b, reaches h x b <-> In b (foot f h x)).
  { intros A of f h x v E. apply value_read in E as (t & E & _). exact (reaches_foot f h x (Some t) E). }
  split; [|split; [|split; [|split]]]; intros h x v y h' b P E L.
  - destruct (anonymize_places_spec h x v P) as (V & _ & B). rewrite E in V, B. cbn [fst snd] in V, B.
    intros R. apply (K _ _ _ _ _ _ V) in R. specialize (B b R). lia.
  - destruct (anonymize_places2_spec h x v P) as (V & _ & B). rewrite E in V, B. cbn [fst snd] in V, B.
    intros R. apply (K _ _ _ _ _ _ V) in R. specialize (B b R). lia.
  - destruct (anonymize_vehicles_spec h x v P) as (V & _ & rs & d & Ex & B). rewrite E in V, B. cbn [fst snd] in V, B.
    rewrite (K _ _ _ _ _ _ V), (in_old (length h) _ b L), B, counter_ref_iff. unfold counter_of. split.
    + intros (r & d' & f & l & g & Ir & Er). exists d, rs, r, d', f, l, g. auto.
    + intros (d2 & rs2 & r & d' & f & l & g & Ex2 & Ir & Er). rewrite Ex in Ex2. injection Ex2 as <- <-. exists r, d', f, l, g. auto.
  - destruct (anonymize_ident_spec h x v P) as (V & _ & B). rewrite E in V, B. cbn [fst snd] in V, B.
    rewrite (K _ _ _ _ _ _ V), (in_old (length h) _ b L), B. exact (ident_refs_iff h x v b P).
  - destruct (anonymize_place_step h 0 x v [] P) as (e' & He & V & B & _). rewrite app_nil_r, E in He, V, B. cbn [fst snd] in He, V, B.
    subst h'. rewrite (K _ _ _ _ _ _ V), (in_old (length h) _ b L), B. unfold time_ref, time_pointer_of.
    destruct (fetch h x) as [[d rs]|]; [|split; [intros []|intros (d & Q); discriminate Q]].
    destruct rs as [|t [|? ?]]; try (split; [intros []|intros (d' & Q); discriminate Q]).
    rewrite in_ol. split; [intros ->; now exists d|intros (d' & Q); injection Q as _ ->; reflexivity].
Qed.

(** Hence: whatever is done afterwards to messages that were there before, other than
    those that are shared, does not show in the anonymised file; and what is done to
    messages that were not, does not show in the original. *)
Theorem C119_edits_partial :
  (forall h x v y h' h2, places_at h x = Some v -> anonymize_places_h x h = (y, h') ->
     (forall b, (length h <= b)%nat -> nth_error h2 b = nth_error h' b) -> places_at h2 y = Some (anonymize_places v)) /\
  (forall h x v y h' h2, places2_at h x = Some v -> anonymize_places2_h x h = (y, h') ->
     (forall b, (length h <= b)%nat -> nth_error h2 b = nth_error h' b) -> places2_at h2 y = Some (anonymize_places_g2 v)) /\
  (forall h x v y h' h2, vehicles_at h x = Some v -> anonymize_vehicles_h x h = (y, h') ->
     (forall b, (length h <= b)%nat \/ counter_of h x b -> nth_error h2 b = nth_error h' b) ->
     vehicles_at h2 y = Some (anonymize_vehicles v)) /\
  (forall h x v y h' h2, ident_at h x = Some v -> anonymize_ident_h x h = (y, h') ->
     (forall b, (length h <= b)%nat \/ kept_of h x b -> nth_error h2 b = nth_error h' b) ->
     ident_at h2 y = Some (anonymize_identification v)) /\
  (forall h x y h' h2,
     (forall b, (b < length h)%nat -> nth_error h2 b = nth_error h' b) ->
     (forall v, places_at h x = Some v -> anonymize_places_h x h = (y, h') -> places_at h2 x = Some v) /\
     (forall v, places2_at h x = Some v -> anonymize_places2_h x h = (y, h') -> places2_at h2 x = Some v) /\
     (forall v, vehicles_at h x = Some v -> anonymize_vehicles_h x h = (y, h') -> vehicles_at h2 x = Some v) /\
     (forall v, ident_at h x = Some v -> anonymize_ident_h x h = (y, h') -> ident_at h2 x = Some v)).
Proof.
  destruct C119_shared_partial as (S1 & S2 & S3 & S4 & _). destruct C118_anonymise_leaves_source as (U1 & U2 & U3 & U4).
  assert (K : forall A (of : tree -> option A) h h2 x v, value of 4 h x = Some v ->
    (forall b, reaches h x b -> nth_error h2 b = nth_error h b) -> value of 4 h2 x = Some v).
  { intros A of h h2 x v E H. rewrite (value_frame of 4 h h2 x); [exact E|]. intros b Ib. apply H.
    apply value_read in E as (t & E & _). now apply (reaches_foot 4 h x (Some t) E). }
  assert (K2 : forall A (of : tree -> option A) h h' h2 x v, value of 4 h x = Some v -> untouched h h' ->
    (forall b, (b < length h)%nat -> nth_error h2 b = nth_error h' b) -> value of 4 h2 x = Some v).
  { intros A of h h' h2 x v E U H. rewrite (value_frame of 4 h h2 x); [exact E|]. intros b Ib.
    pose proof (value_inside of 4 h x v E b Ib) as L. rewrite (H b L). destruct (nth_error h b) as [o|] eqn:Eb; [exact (U b o Eb)|].
    apply nth_error_None in Eb. lia. }
  split; [|split; [|split; [|split]]].
  - intros h x v y h' h2 P E H. destruct (U1 h x v y h' P E) as (V & _). apply (K _ _ h' h2 y _ V). intros b R. apply H.
    destruct (Nat.lt_ge_cases b (length h)) as [L|L]; [destruct (S1 h x v y h' b P E L R)|exact L].
  - intros h x v y h' h2 P E H. destruct (U2 h x v y h' P E) as (V & _). apply (K _ _ h' h2 y _ V). intros b R. apply H.
    destruct (Nat.lt_ge_cases b (length h)) as [L|L]; [destruct (S2 h x v y h' b P E L R)|exact L].
  - intros h x v y h' h2 P E H. destruct (U3 h x v y h' P E) as (V & _). apply (K _ _ h' h2 y _ V). intros b R. apply H.
    destruct (Nat.lt_ge_cases b (length h)) as [L|L]; [right; now apply (S3 h x v y h' b P E L)|now left].
  - intros h x v y h' h2 P E H. destruct (U4 h x v y h' P E) as (V & _). apply (K _ _ h' h2 y _ V). intros b R. apply H.
    destruct (Nat.lt_ge_cases b (length h)) as [L|L]; [right; now apply (S4 h x v y h' b P E L)|now left].
  - intros h x y h' h2 H. split; [|split; [|split]]; intros v P E.
    + exact (K2 _ _ h h' h2 x v P (proj1 (proj2 (U1 h x v y h' P E))) H).
    + exact (K2 _ _ h h' h2 x v P (proj1 (proj2 (U2 h x v y h' P E))) H).
    + exact (K2 _ _ h h' h2 x v P (proj1 (proj2 (U3 h x v y h' P E))) H).
    + exact (K2 _ _ h h' h2 x v P (proj1 (proj2 (U4 h x v y h' P E))) H).
Qed.

(** ** Cases *)

(** Two places whose times are one message, a vehicle with registration and counter, an
    identification of a workshop card with a driver holder left over *)
Definition places_heap : heap :=
  [ mkObj (DTime (mkTs 1600000000 0)) [];
    mkObj (DPlace [1; 2; 3] 1 None 5 None [7] 123456) [Some 0%nat];
    mkObj (DPlace [] 2 None 6 None [8] 777) [Some 0%nat];
    mkObj (DPlaces [9] 1) [Some 1%nat; Some 2%nat; Some 1%nat] ].

Definition places2_heap : heap :=
  [ mkObj (DTime (mkTs 1600000000 0)) [];
    mkObj (DGeo (mkGeo 48123 2345)) [];
    mkObj (DGnss 7) [Some 0%nat; Some 1%nat];
    mkObj (DPlace2 [] 1 None 5 None [7] 123456) [Some 0%nat; Some 2%nat];
    mkObj (DPlaces2 [9] 0) [Some 3%nat; Some 3%nat] ].

Definition vehicles_heap : heap :=
  [ mkObj (DTime (mkTs 1600000000 0)) [];
    mkObj (DStr (mkSV None 1 (Some 13) [65; 66])) [];
    mkObj (DReg 13) [Some 1%nat];
    mkObj (DBcd (mkBcd 1234 2)) [];
    mkObj (DVehicle [] 1234 5678) [Some 0%nat; Some 0%nat; Some 2%nat; Some 3%nat];
    mkObj (DVehicles [] 0) [Some 4%nat] ].

Definition ident_heap : heap :=
  [ mkObj (DIa5 (mkIA5 None (Some 1) [48])) [];
    mkObj (DIa5 (mkIA5 None (Some 1) [49])) [];
    mkObj DOwner [Some 0%nat; Some 1%nat; Some 1%nat; None];
    mkObj (DCard 13) [None; Some 2%nat; None; None; None; None];
    mkObj (DStr (mkSV None 1 (Some 2) [102; 114])) [];
    mkObj DBody [None; None; Some 4%nat; Some 4%nat; Some 4%nat];
    mkObj DHolder [None; None; None; Some 1%nat];
    mkObj (DIdent CARD_TYPE_WORKSHOP (Some [1]) true) [Some 3%nat; Some 6%nat; Some 5%nat; None; None] ].

Definition worth {A} (o : option A) : bool := match o with Some _ => true | None => false end.

Example C118_applies :
  worth (places_at places_heap (Some 3%nat)) = true /\ worth (places2_at places2_heap (Some 4%nat)) = true /\
  worth (vehicles_at vehicles_heap (Some 5%nat)) = true /\ worth (ident_at ident_heap (Some 7%nat)) = true /\
  option_map (fun v => map pl_time (ps_records v)) (places_at (snd (anonymize_places_h (Some 3%nat) places_heap)) (fst (anonymize_places_h (Some 3%nat) places_heap)))
    = Some [Some (mkTs 1577836800 0); Some (mkTs 1577840400 0); Some (mkTs 1577844000 0)].
Proof. vm_compute. auto. Qed.

Example C119_applies :
  counter_of vehicles_heap (Some 5%nat) 3 /\ kept_of ident_heap (Some 7%nat) 1 /\ kept_of ident_heap (Some 7%nat) 4 /\
  time_pointer_of places_heap (Some 1%nat) 0 /\ ~ kept_of ident_heap (Some 7%nat) 0.
Proof.
  split; [do 7 eexists; split; [reflexivity|]; split; [now left|reflexivity]|].
  split; [do 8 eexists; split; [reflexivity|]; left; do 9 eexists; split; [reflexivity|]; split; [reflexivity|now left]|].
  split; [do 8 eexists; split; [reflexivity|]; right; eexists; split; [right; now left|]; eexists; exists [None; None; Some 4%nat; Some 4%nat]; reflexivity|].
  split; [eexists; reflexivity|].
  destruct (ident_at ident_heap (Some 7%nat)) as [v|] eqn:E; [|discriminate E].
  rewrite <- (ident_refs_iff ident_heap (Some 7%nat) v 0 E). vm_compute. intuition discriminate.
Qed.

(** In full the claim would be that the anonymised file has no message in common with
    what there was.  It has: setting the vehicle counter, or the language, of the original
    later on changes the file that was anonymised before. *)
Theorem C119_shared_refuted :
  (exists h x v y h' c o w, vehicles_at h x = Some v /\ anonymize_vehicles_h x h = (y, h') /\
     reaches h x c /\ vehicles_at (store (Some c) o h') y = Some w /\ w <> anonymize_vehicles v) /\
  (exists h x v y h' c o w, ident_at h x = Some v /\ anonymize_ident_h x h = (y, h') /\
     reaches h x c /\ ident_at (store (Some c) o h') y = Some w /\ w <> anonymize_identification v).
Proof.
  split.
  - destruct (vehicles_at vehicles_heap (Some 5%nat)) as [v|] eqn:P; [|discriminate P].
    destruct (anonymize_vehicles_h (Some 5%nat) vehicles_heap) as [y h'] eqn:E.
    destruct (vehicles_at (store (Some 3%nat) (mkObj (DBcd (mkBcd 9999 2)) []) h') y) as [w|] eqn:W.
    2: { exfalso. vm_compute in E. injection E as <- <-. vm_compute in W. discriminate W. }
    exists vehicles_heap, (Some 5%nat), v, y, h', 3%nat, (mkObj (DBcd (mkBcd 9999 2)) []), w.
    split; [exact P|]. split; [exact E|].
    split; [eapply There; [reflexivity|now left|]; eapply There; [reflexivity|do 3 right; now left|constructor]|].
    split; [exact W|]. vm_compute in E. injection E as <- <-. vm_compute in W. vm_compute in P. injection P as <-. injection W as <-.
    vm_compute. intros Q. discriminate Q.
  - destruct (ident_at ident_heap (Some 7%nat)) as [v|] eqn:P; [|discriminate P].
    destruct (anonymize_ident_h (Some 7%nat) ident_heap) as [y h'] eqn:E.
    destruct (ident_at (store (Some 4%nat) (mkObj (DStr (mkSV None 1 (Some 2) [100; 101])) []) h') y) as [w|] eqn:W.
    2: { exfalso. vm_compute in E. injection E as <- <-. vm_compute in W. discriminate W. }
    exists ident_heap, (Some 7%nat), v, y, h', 4%nat, (mkObj (DStr (mkSV None 1 (Some 2) [100; 101])) []), w.
    split; [exact P|]. split; [exact E|].
    split; [eapply There; [reflexivity|right; right; now left|]; eapply There; [reflexivity|do 2 right; now left|constructor]|].
    split; [exact W|]. vm_compute in E. injection E as <- <-. vm_compute in W. vm_compute in P. injection P as <-. injection W as <-.
    vm_compute. intros Q. discriminate Q.
Qed.
