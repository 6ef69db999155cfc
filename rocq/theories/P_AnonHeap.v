(** Lemmas on the heap of AnonHeap.v: what a message reaches, and loops that change one
    record after the other. *)

From Coq Require Import String.
From Verif Require Import Base DDScalar DDString DDRecord CardRecords CardIdent Anonymize AnonHeap.
Local Open Scope list_scope.

(** ** Heaps *)

Lemma fetch_some h r o : fetch h r = Some o -> exists a, r = Some a /\ nth_error h a = Some o /\ (a < length h)%nat.
Proof.
  destruct r as [a|]; [|discriminate]. cbn. intros E. exists a. split; [reflexivity|]. split; [exact E|].
  apply nth_error_Some. congruence.
Qed.

Lemma store_length r o h : (forall a, r = Some a -> (a < length h)%nat) -> length (store r o h) = length h.
Proof.
  destruct r as [a|]; [|reflexivity]. intros L. specialize (L a eq_refl). cbn [store].
  rewrite app_length. cbn [length]. rewrite firstn_length, skipn_length. lia.
Qed.

Lemma nth_store_eq a o h : (a < length h)%nat -> nth_error (store (Some a) o h) a = Some o.
Proof.
  intros L. cbn [store]. rewrite nth_error_app2; rewrite firstn_length; [|lia].
  replace (a - Nat.min a (length h))%nat with 0%nat by lia. reflexivity.
Qed.

Lemma nth_skip : forall a (h : heap) k, nth_error (skipn a h) k = nth_error h (a + k).
Proof. induction a as [|a IH]; intros h k; [reflexivity|]. destruct h; [now destruct k|]. apply IH. Qed.

Lemma nth_first : forall a (h : heap) k, (k < a)%nat -> nth_error (firstn a h) k = nth_error h k.
Proof.
  induction a as [|a IH]; intros h k L; [lia|]. destruct h; [now destruct k|]. destruct k; [reflexivity|]. cbn. apply IH. lia.
Qed.

Lemma nth_store_neq a o h b : (a < length h)%nat -> a <> b -> nth_error (store (Some a) o h) b = nth_error h b.
Proof.
  intros L N. cbn [store]. destruct (Nat.lt_ge_cases b a) as [B|B].
  - rewrite nth_error_app1; [|rewrite firstn_length; lia]. now apply nth_first.
  - rewrite nth_error_app2; rewrite firstn_length, Nat.min_l by lia; [|lia].
    replace (b - a)%nat with (S (b - a - 1)) by lia.
    change (nth_error (o :: skipn (S a) h) (S (b - a - 1))) with (nth_error (skipn (S a) h) (b - a - 1)).
    rewrite nth_skip. f_equal. lia.
Qed.

Lemma nth_new (h e : heap) b : (b < length h)%nat -> nth_error (h ++ e) b = nth_error h b.
Proof. intros L. now apply nth_error_app1. Qed.

(** The last of the new objects *)
Lemma store_last (h e : heap) o o' : store (Some (length h)) o (h ++ o' :: e) = h ++ o :: e.
Proof.
  cbn [store]. rewrite firstn_app, firstn_all2 by lia. rewrite Nat.sub_diag. cbn [firstn]. rewrite app_nil_r.
  f_equal. rewrite skipn_app, skipn_all2 by lia. replace (S (length h) - length h)%nat with 1%nat by lia. reflexivity.
Qed.

(** ** What a message reaches *)

Fixpoint foot (f : nat) (h : heap) (r : ref) : list nat :=
  match r with
  | None => []
  | Some a =>
      match f with
      | O => [a]
      | S f => a :: match nth_error h a with None => [] | Some o => flat_map (foot f h) (refs o) end
      end
  end.

Lemma read_some f h a : read (S f) h (Some a) =
  match nth_error h a with
  | None => None
  | Some o => option_map (fun ts => Some (Tree (data o) ts)) (every (map (read f h) (refs o)))
  end.
Proof. reflexivity. Qed.

Lemma foot_some f h a : foot (S f) h (Some a) =
  a :: match nth_error h a with None => [] | Some o => flat_map (foot f h) (refs o) end.
Proof. reflexivity. Qed.

Lemma foot_head f h a : In a (foot f h (Some a)).
Proof. destruct f; left; reflexivity. Qed.

Lemma map_ext_in_every {A B} (f g : A -> option B) l : (forall a, In a l -> f a = g a) -> every (map f l) = every (map g l).
Proof. intros H. f_equal. now apply map_ext_in. Qed.

(** A message depends on nothing but what it reaches. *)
Lemma frame f : forall h h' r, (forall b, In b (foot f h r) -> nth_error h' b = nth_error h b) ->
  read f h' r = read f h r /\ foot f h' r = foot f h r.
Proof.
  induction f as [|f IH]; intros h h' r H; destruct r as [a|]; cbn [read foot] in *; try (split; reflexivity).
  pose proof (H a (or_introl eq_refl)) as Ha. rewrite Ha. destruct (nth_error h a) as [[d rs]|]; [|split; reflexivity].
  cbn [refs data] in *. split.
  - f_equal. apply map_ext_in_every. intros r I. apply IH. intros b Ib. apply H. right. apply in_flat_map. now exists r.
  - f_equal. clear Ha. induction rs as [|r rs IHr]; [reflexivity|]. cbn [flat_map] in *. f_equal.
    + apply IH. intros b Ib. apply H. right. apply in_or_app. now left.
    + apply IHr. intros b [Ib|Ib]; apply H; [now left|]. right. apply in_or_app. now right.
Qed.

Lemma every_some {A} (l : list (option A)) r : every l = Some r -> forall o, In o l -> exists a, o = Some a.
Proof.
  revert r. induction l as [|o l IH]; intros r E p I; [destruct I|]. cbn [every] in E.
  destruct o as [a|]; [|discriminate]. destruct (every l) as [t|] eqn:Et; [|discriminate].
  destruct I as [<-|I]; [eauto|]. now apply (IH t).
Qed.

Lemma inside f : forall h r t, read f h r = Some t -> forall b, In b (foot f h r) -> (b < length h)%nat.
Proof.
  induction f as [|f IH]; intros h r t E b I; destruct r as [a|]; cbn [read foot] in *; try (destruct I; fail); try discriminate E.
  destruct (nth_error h a) as [[d rs]|] eqn:Ea; [|discriminate E]. cbn [refs data] in *.
  assert (La : (a < length h)%nat) by (apply nth_error_Some; congruence).
  destruct I as [<-|I]; [exact La|]. apply in_flat_map in I as (r & Ir & Ib).
  destruct (every (map (read f h) rs)) as [ts|] eqn:Et; [|discriminate E].
  destruct (every_some _ _ Et (read f h r)) as (t' & Er); [now apply in_map|]. now apply (IH h r t').
Qed.

Lemma grow f h e r t : read f h r = Some t -> read f (h ++ e) r = Some t /\ foot f (h ++ e) r = foot f h r.
Proof.
  intros E. destruct (frame f h (h ++ e) r) as [A B].
  - intros b I. apply nth_new. now apply (inside f h r t).
  - rewrite A, B. auto.
Qed.

Section values.
Context {V : Type} (vof : tree -> option V).

Lemma value_read f h r v : value vof f h r = Some v -> exists t, read f h r = Some (Some t) /\ vof t = Some v.
Proof. unfold value, some. destruct (read f h r) as [[t|]|]; cbn; try discriminate. intros E. eauto. Qed.

Lemma value_frame f h h' r : (forall b, In b (foot f h r) -> nth_error h' b = nth_error h b) ->
  value vof f h' r = value vof f h r.
Proof. intros H. unfold value. now rewrite (proj1 (frame f h h' r H)). Qed.

Lemma value_inside f h r v : value vof f h r = Some v -> forall b, In b (foot f h r) -> (b < length h)%nat.
Proof. intros E. apply value_read in E as (t & E & _). now apply inside with (Some t). Qed.

Lemma value_grow f h e r v : value vof f h r = Some v -> value vof f (h ++ e) r = Some v /\ foot f (h ++ e) r = foot f h r.
Proof.
  intros E. assert (G : forall b, In b (foot f h r) -> nth_error (h ++ e) b = nth_error h b).
  { intros b I. apply nth_new. now apply (value_inside f h r v E). }
  split; [now rewrite (value_frame f h _ r G)|now apply frame].
Qed.
End values.

(** ** Loops over records *)

(** No two records reach the same object, unless it is older than [m]. *)
Fixpoint apart (f m : nat) (h : heap) (rs : list ref) : Prop :=
  match rs with
  | [] => True
  | r :: t => (forall r' b, In r' t -> (m <= b)%nat -> In b (foot f h r) -> ~ In b (foot f h r')) /\ apart f m h t
  end.

(** From [h] to [h'] nothing changed but what [rs] reach, unless it is older than [m]. *)
Definition changes (f m : nat) (rs : list ref) (h h' : heap) : Prop :=
  (length h <= length h')%nat /\
  forall b, (b < length h)%nat -> ((b < m)%nat \/ forall r, In r rs -> ~ In b (foot f h r)) ->
    nth_error h' b = nth_error h b.

Section loop.
Context {V W : Type} (f m : nat).
Variable pre : heap -> ref -> V -> Prop.
Variable post : heap -> ref -> W -> Prop.
Variable g : Z -> ref -> heap -> heap.
Variable G : Z -> V -> W.

Definition local {X} (P : heap -> ref -> X -> Prop) : Prop :=
  forall h h' r x, (forall b, In b (foot f h r) -> nth_error h' b = nth_error h b) -> P h r x -> P h' r x.

Definition within {X} (P : heap -> ref -> X -> Prop) : Prop :=
  forall h r x, P h r x -> forall b, In b (foot f h r) -> (b < length h)%nat.

Hypothesis pre_local : local pre.
Hypothesis post_local : local post.
Hypothesis pre_within : within pre.
Hypothesis post_within : within post.
Hypothesis step : forall i r v h, pre h r v ->
  post (g i r h) r (G i v) /\ changes f m [r] h (g i r h) /\
  (forall b, In b (foot f (g i r h) r) -> In b (foot f h r) \/ (length h <= b)%nat).

Lemma each_spec : forall rs vs i h, (m <= length h)%nat -> Forall2 (pre h) rs vs -> apart f m h rs ->
  let h' := each g i rs h in
  Forall2 (post h') rs (mapi_from G i vs) /\ apart f m h' rs /\ changes f m rs h h' /\
  (forall r b, In r rs -> In b (foot f h' r) -> In b (foot f h r) \/ (length h <= b)%nat).
Proof.
  induction rs as [|r rs IH]; intros vs i h M P A; cbn [each].
  - inversion P; subst. split; [constructor|]. split; [exact I|]. split; [split; [lia|auto]|]. intros r b [].
  - inversion P as [|? v ? vs' Pr Ps]; subst. cbn [mapi_from]. destruct A as [A0 A1].
    destruct (step i r v h Pr) as (Q & (L & C) & B). set (h1 := g i r h) in *.
    assert (Same : forall r' x, In r' rs -> pre h r' x -> forall b, In b (foot f h r') -> nth_error h1 b = nth_error h b).
    { intros r' x I' P' b Ib. apply C; [now apply (pre_within h r' x P')|].
      destruct (Nat.lt_ge_cases b m) as [Lb|Lb]; [now left|]. right. intros r0 [<-|[]] I0. exact (A0 r' b I' Lb I0 Ib). }
    assert (Ex : forall r', In r' rs -> exists x, pre h r' x).
    { intros r' I'. clear - Ps I'. induction Ps as [|r0 x0 l l' P0 Ps IHp]; [destruct I'|].
      destruct I' as [<-|I']; [eauto|auto]. }
    assert (Ft : forall r', In r' rs -> foot f h1 r' = foot f h r').
    { intros r' I'. destruct (Ex r' I') as (x & Px). apply frame. now apply (Same r' x). }
    assert (Ps1 : Forall2 (pre h1) rs vs').
    { clear - Ps Same pre_local. revert Same. induction Ps as [|r0 x0 l l' P0 Ps IHp]; intros Same; [constructor|].
      constructor; [|apply IHp; intros r' x I'; apply Same; now right].
      apply (pre_local h); [|exact P0]. apply (Same r0 x0); [now left|exact P0]. }
    assert (A2 : apart f m h1 rs).
    { clear - A1 Ft. induction rs as [|r0 rs IHr]; [exact I|]. destruct A1 as [A0 A1]. split.
      - intros r' b I' Lb. rewrite (Ft r0 (or_introl eq_refl)), (Ft r' (or_intror I')). now apply A0.
      - apply IHr; [exact A1|]. intros r' I'. apply Ft. now right. }
    destruct (IH vs' (i + 1) h1 ltac:(lia) Ps1 A2) as (Q2 & A3 & (L2 & C2) & B2). set (h2 := each g (i + 1) rs h1) in *.
    assert (Same2 : forall b, In b (foot f h1 r) -> nth_error h2 b = nth_error h1 b).
    { intros b Ib. apply C2; [now apply (post_within h1 r _ Q)|].
      destruct (Nat.lt_ge_cases b m) as [Lb|Lb]; [now left|]. right. intros r' I' Ib'. rewrite (Ft r' I') in Ib'.
      destruct (B b Ib) as [Ib0|Ib0]; [exact (A0 r' b I' Lb Ib0 Ib')|].
      destruct (Ex r' I') as (x & Px). pose proof (pre_within h r' x Px b Ib'). lia. }
    assert (Ft2 : foot f h2 r = foot f h1 r) by now apply frame.
    split; [|split; [|split]].
    + constructor; [now apply (post_local h1)|exact Q2].
    + split; [|exact A3]. intros r' b I' Lb Ib Ib'. rewrite Ft2 in Ib.
      destruct (B b Ib) as [Ib0|Ib0].
      * destruct (B2 r' b I' Ib') as [Ib2|Ib2]; [rewrite (Ft r' I') in Ib2; exact (A0 r' b I' Lb Ib0 Ib2)|].
        pose proof (post_within h1 r _ Q b Ib). lia.
      * destruct (B2 r' b I' Ib') as [Ib2|Ib2].
        { rewrite (Ft r' I') in Ib2. destruct (Ex r' I') as (x & Px). pose proof (pre_within h r' x Px b Ib2). lia. }
        pose proof (post_within h1 r _ Q b Ib). lia.
    + split; [lia|]. intros b Lb O. rewrite C2; [apply C; [exact Lb|]|lia|].
      * destruct O as [O|O]; [now left|]. right. intros r0 [<-|[]]. apply O. now left.
      * destruct O as [O|O]; [now left|]. right. intros r' I'. rewrite (Ft r' I'). apply O. now right.
    + intros r' b [<-|I'] Ib.
      * rewrite Ft2 in Ib. destruct (B b Ib); [now left|right; lia].
      * destruct (B2 r' b I' Ib) as [Ib2|Ib2]; [rewrite (Ft r' I') in Ib2; now left|right; lia].
Qed.
End loop.

(** Loops that make a new record of each.  [sh] says which old objects the new one
    shares. *)
Section collecting.
Context {V W : Type} (f n : nat) (vof : tree -> option V) (wof : tree -> option W).
Variable c : Z -> ref -> heap -> ref * heap.
Variable G : Z -> V -> W.
Variable sh : ref -> list nat.
Variable Q : heap -> ref -> Prop.
Variable h0 : heap.
Hypothesis n_is : n = length h0.
Hypothesis Q_local : forall h h' r, (forall b, In b (foot f h r) -> nth_error h' b = nth_error h b) -> Q h r -> Q h' r.

Definition old (b : nat) : bool := (b <? n)%nat.

Hypothesis step : forall i r v e, value vof f h0 r = Some v ->
  exists e', snd (c i r (h0 ++ e)) = (h0 ++ e) ++ e' /\
    let r' := fst (c i r (h0 ++ e)) in
    value wof f ((h0 ++ e) ++ e') r' = Some (G i v) /\
    filter old (foot f ((h0 ++ e) ++ e') r') = sh r /\
    (forall b, In b (foot f ((h0 ++ e) ++ e') r') -> (b < n)%nat \/ (length (h0 ++ e) <= b)%nat) /\
    Q ((h0 ++ e) ++ e') r'.

Lemma collect_spec : forall rs vs i e, Forall2 (fun r v => value vof f h0 r = Some v) rs vs ->
  exists e', snd (collect c i rs (h0 ++ e)) = (h0 ++ e) ++ e' /\
    let rs' := fst (collect c i rs (h0 ++ e)) in let h' := (h0 ++ e) ++ e' in
    Forall2 (fun r v => value wof f h' r = Some v) rs' (mapi_from G i vs) /\
    Forall2 (fun r r' => filter old (foot f h' r') = sh r) rs rs' /\
    apart f n h' rs' /\
    (forall r' b, In r' rs' -> In b (foot f h' r') -> (b < n)%nat \/ (length (h0 ++ e) <= b)%nat) /\
    (forall r', In r' rs' -> Q h' r').
Proof.
  induction rs as [|r rs IH]; intros vs i e P; cbn [collect].
  - inversion P; subst. exists []. rewrite app_nil_r. cbn [fst snd mapi_from]. split; [reflexivity|].
    split; [constructor|]. split; [constructor|]. split; [exact I|]. split; [intros r' b []|intros r' []].
  - inversion P as [|? v ? vs' Pr Ps]; subst. cbn [mapi_from].
    destruct (step i r v e Pr) as (e1 & E1 & Q1 & S1 & B1 & N1). destruct (c i r (h0 ++ e)) as [r1 h1]. cbn [fst snd] in *. subst h1.
    rewrite <- app_assoc in *. destruct (IH vs' (i + 1) (e ++ e1) Ps) as (e2 & E2 & Q2 & S2 & A2 & B2 & N2).
    destruct (collect c (i + 1) rs (h0 ++ e ++ e1)) as [rs2 h2]. cbn [fst snd] in *. subst h2.
    exists (e1 ++ e2). replace ((h0 ++ e) ++ e1 ++ e2) with ((h0 ++ e ++ e1) ++ e2) by (rewrite <- !app_assoc; reflexivity).
    destruct (value_grow wof f _ e2 r1 _ Q1) as [Q1' F1].
    split; [reflexivity|]. split; [constructor; [exact Q1'|exact Q2]|].
    split; [constructor; [now rewrite F1|exact S2]|]. split.
    + split; [|exact A2]. intros r' b I' Lb Ib Ib'. rewrite F1 in Ib.
      pose proof (value_inside wof f _ r1 _ Q1 b Ib) as L1. destruct (B2 r' b I' Ib') as [L2|L2]; lia.
    + split.
      * intros r' b [<-|I'] Ib.
        { rewrite F1 in Ib. apply (B1 b Ib). }
        destruct (B2 r' b I' Ib) as [L|L]; [now left|right]. rewrite !app_length in L. rewrite app_length. lia.
      * intros r' [<-|I']; [|now apply N2]. apply (Q_local (h0 ++ e ++ e1)); [|exact N1].
        intros b Ib. apply nth_new. now apply (value_inside wof f _ r1 _ Q1).
Qed.
End collecting.

Lemma mapi_from_map {A B C} (g : Z -> A -> B) (k : B -> C) l : forall i,
  map k (mapi_from g i l) = mapi_from (fun i a => k (g i a)) i l.
Proof. induction l as [|a l IH]; intros i; [reflexivity|]. cbn. now rewrite IH. Qed.

Lemma mapi_from_mapi {A B C} (g : Z -> A -> B) (k : Z -> B -> C) l : forall i,
  mapi_from k i (mapi_from g i l) = mapi_from (fun i a => k i (g i a)) i l.
Proof. induction l as [|a l IH]; intros i; [reflexivity|]. cbn. now rewrite IH. Qed.

Lemma mapi_from_const {A B} (g : A -> B) l : forall i, mapi_from (fun _ => g) i l = map g l.
Proof. induction l as [|a l IH]; intros i; [reflexivity|]. cbn. now rewrite IH. Qed.

(** ** Shapes *)

(** A pointer to a message without others below, or nil *)
Definition leaf {X} (mk : X -> payload) (h : heap) (t : ref) (o : option X) : Prop :=
  match t, o with
  | None, None => True
  | Some c, Some x => nth_error h c = Some (mkObj (mk x) [])
  | _, _ => False
  end.

Definition ol (t : ref) : list nat := match t with Some c => [c] | None => [] end.

Lemma leaf_foot {X} (mk : X -> payload) f h t o : leaf mk h t o -> foot (S f) h t = ol t.
Proof. destruct t as [c|]; [|reflexivity]. destruct o as [x|]; [|contradiction]. cbn [leaf foot ol]. now intros ->. Qed.

Lemma leaf_frame {X} (mk : X -> payload) h h' t o : (forall b, In b (ol t) -> nth_error h' b = nth_error h b) -> leaf mk h t o -> leaf mk h' t o.
Proof. destruct t as [c|], o as [x|]; cbn [leaf ol]; auto. intros H E. rewrite H; [exact E|now left]. Qed.

Lemma leaf_new {X} (mk : X -> payload) h x : leaf mk (h ++ [mkObj (mk x) []]) (Some (length h)) (Some x).
Proof. cbn. rewrite nth_error_app2, Nat.sub_diag by lia. reflexivity. Qed.

Lemma leaf_grow {X} (mk : X -> payload) h e t o : leaf mk h t o -> leaf mk (h ++ e) t o.
Proof.
  destruct t as [c|], o as [x|]; cbn [leaf]; auto. intros E. rewrite nth_new; [exact E|]. apply nth_error_Some. congruence.
Qed.
Section leaves.
Context {X : Type} (mk : X -> payload) (xof : tree -> option X).
Hypothesis xof_is : forall t x, xof t = Some x <-> t = Tree (mk x) [].

Lemma leaf_iff f h t o : obind (read (S f) h t) (opt xof) = Some o <-> leaf mk h t o.
Proof.
  destruct t as [c|]; cbn [read leaf].
  2: { cbn. destruct o; split; intros E; try discriminate E; try contradiction; auto. }
  destruct (nth_error h c) as [[d rs]|]; cbn [refs data].
  2: { cbn. split; [discriminate|]. destruct o; [discriminate|contradiction]. }
  destruct (every (map (read f h) rs)) as [ts|] eqn:Et; cbn [option_map obind opt].
  - destruct (xof (Tree d ts)) as [x|] eqn:Ex; cbn [option_map].
    + split.
      * intros E. injection E as <-. apply xof_is in Ex. injection Ex as -> ->.
        destruct rs as [|r rs]; [reflexivity|]. cbn in Et. destruct (read f h r); [|discriminate Et].
        destruct (every _); discriminate Et.
      * destruct o as [y|]; [|contradiction]. intros E. injection E as -> ->. cbn in Et. injection Et as <-.
        replace x with y; [reflexivity|]. apply xof_is in Ex. assert (Ey : xof (Tree (mk y) []) = Some y) by now apply xof_is.
        rewrite Ex in Ey. assert (Ex' : xof (Tree (mk x) []) = Some x) by now apply xof_is. congruence.
    + split; [discriminate|]. destruct o as [y|]; [|contradiction]. intros E. injection E as -> ->. cbn in Et. injection Et as <-.
      assert (Ey : xof (Tree (mk y) []) = Some y) by now apply xof_is. congruence.
  - split; [discriminate|]. destruct o as [y|]; [|contradiction]. intros E. injection E as -> ->. discriminate Et.
Qed.

End leaves.

Lemma time_is t x : time_of t = Some x <-> t = Tree (DTime x) [].
Proof. destruct t as [[] []]; cbn; split; intros E; try discriminate E; now injection E as ->. Qed.
Lemma str_is t x : str_of t = Some x <-> t = Tree (DStr x) [].
Proof. destruct t as [[] []]; cbn; split; intros E; try discriminate E; now injection E as ->. Qed.
Lemma ia5_is t x : ia5_of t = Some x <-> t = Tree (DIa5 x) [].
Proof. destruct t as [[] []]; cbn; split; intros E; try discriminate E; now injection E as ->. Qed.
Lemma bcd_is t x : bcd_of t = Some x <-> t = Tree (DBcd x) [].
Proof. destruct t as [[] []]; cbn; split; intros E; try discriminate E; now injection E as ->. Qed.
Lemma geo_is t x : geo_of t = Some x <-> t = Tree (DGeo x) [].
Proof. destruct t as [[] []]; cbn; split; intros E; try discriminate E; now injection E as ->. Qed.
Lemma date_is t x : date_of t = Some x <-> t = Tree (DDate x) [].
Proof. destruct t as [[] []]; cbn; split; intros E; try discriminate E; now injection E as ->. Qed.

(** Lists of records *)
Lemma every_cons {A} (o : option A) l r : every (o :: l) = Some r <-> exists a t, o = Some a /\ every l = Some t /\ r = a :: t.
Proof.
  cbn [every]. destruct o as [a|], (every l) as [t|]; split; intros E; try discriminate E.
  - injection E as <-. eauto.
  - destruct E as (a' & t' & E1 & E2 & ->). congruence.
  - destruct E as (a' & t' & E1 & E2 & ->). discriminate.
  - destruct E as (a' & t' & E1 & E2 & ->). discriminate.
  - destruct E as (a' & t' & E1 & E2 & ->). discriminate.
Qed.

Lemma records_iff {V} (vof : tree -> option V) f h rs vs :
  obind (every (map (read f h) rs)) (fun ts => every (map (some vof) ts)) = Some vs <->
  Forall2 (fun r v => value vof f h r = Some v) rs vs.
Proof.
  revert vs. induction rs as [|r rs IH]; intros vs; cbn [map].
  - cbn. split; [intros E; injection E as <-; constructor|]. intros E. now inversion E.
  - split.
    + destruct (every (read f h r :: map (read f h) rs)) as [ts|] eqn:E; [|discriminate]. cbn [obind].
      apply every_cons in E as (t & ts' & E1 & E2 & ->). cbn [map]. intros E. apply every_cons in E as (v & vs' & E3 & E4 & ->).
      constructor; [unfold value; rewrite E1; exact E3|]. apply IH. rewrite E2. exact E4.
    + intros E. inversion E as [|? v ? vs' E1 E2]; subst. apply IH in E2. unfold value in E1.
      destruct (read f h r) as [t|]; [|discriminate E1]. cbn [obind] in E1.
      destruct (every (map (read f h) rs)) as [ts|] eqn:Et; [|discriminate E2]. cbn [obind] in E2.
      cbn [every]. rewrite Et. cbn [obind map]. apply every_cons. eauto.
Qed.
