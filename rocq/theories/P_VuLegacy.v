(** Parsers that work at an offset: what they read and when they panic. *)

From Verif Require Import Base Enums Chunks DDScalar Utf8 DDString DDRecord RawTypes Scanner Vu VuLegacy
  P_Scanner P_Scalar P_String P_Utf8 Field P_Basic P_Record P_Vu P_VuRecord Props_Layout Props_Overview P_OverviewWrite Props_VuActivities.

(** [f], started behind [p], reads [a] off the front of [a ++ r]. *)
Definition reads {X} (f : bytes -> nat -> res (X * nat)) (P : bytes -> X -> bytes -> Prop) : Prop :=
  forall p s x o, bytes_ok s ->
  (f (p ++ s) (length p) = Ok (x, o) <-> exists a r, s = a ++ r /\ o = length (p ++ a) /\ P a x r).

Definition panics {X} (f : bytes -> nat -> res (X * nat)) (N : bytes -> Prop) : Prop :=
  forall p s, bytes_ok s -> (f (p ++ s) (length p) = Panic <-> N s).

Lemma reads_weaken {X} f (P Q : bytes -> X -> bytes -> Prop) :
  reads f P -> (forall a x r, bytes_ok (a ++ r) -> (P a x r <-> Q a x r)) -> reads f Q.
Proof.
  intros R E p s x o B. rewrite (R p s x o B). split; intros (a & r & -> & -> & H); exists a, r;
    (split; [reflexivity|split; [reflexivity|]]); now apply E.
Qed.

Lemma panics_weaken {X} (f : bytes -> nat -> res (X * nat)) N M :
  panics f N -> (forall s, bytes_ok s -> (N s <-> M s)) -> panics f M.
Proof. intros R E p s B. rewrite (R p s B). now apply E. Qed.

Lemma reads_bind {X Y} (f : bytes -> nat -> res (X * nat)) (g : X -> bytes -> nat -> res (Y * nat)) P Q :
  reads f P -> (forall x, reads (g x) (Q x)) ->
  reads (fun d o => let* (x, o) := f d o in g x d o)
    (fun a y r => exists a1 a2 x, a = a1 ++ a2 /\ P a1 x (a2 ++ r) /\ Q x a2 y r).
Proof.
  intros RF RG p s y o B. split.
  - intros H. apply bind_ok in H as ([x o1] & E & H). apply RF in E as (a1 & r1 & -> & -> & HP); [|exact B].
    rewrite app_assoc in H. apply bytes_ok_app in B as [B1 B2].
    apply RG in H as (a2 & r & -> & -> & HQ); [|exact B2].
    exists (a1 ++ a2), r. rewrite !app_assoc. split; [reflexivity|]. split; [reflexivity|].
    exists a1, a2, x. auto.
  - intros (a & r & -> & -> & a1 & a2 & x & -> & HP & HQ).
    assert (E : f (p ++ (a1 ++ a2) ++ r) (length p) = Ok (x, length (p ++ a1))).
    { apply RF; [exact B|]. exists a1, (a2 ++ r). rewrite <- app_assoc. auto. }
    rewrite E. cbn [bind]. rewrite <- app_assoc, app_assoc. apply RG.
    + apply bytes_ok_app in B as [B1 B2]. apply bytes_ok_app in B1 as [_ B1]. apply bytes_ok_app. auto.
    + exists a2, r. rewrite !app_assoc. auto.
Qed.

Lemma panics_bind {X Y} (f : bytes -> nat -> res (X * nat)) (g : X -> bytes -> nat -> res (Y * nat)) P N M :
  reads f P -> panics f N -> (forall x, panics (g x) (M x)) ->
  panics (fun d o => let* (x, o) := f d o in g x d o)
    (fun s => N s \/ exists a r x, s = a ++ r /\ P a x r /\ M x r).
Proof.
  intros RF NF NG p s B. split.
  - intros H. apply bind_panic in H as [H|([x o1] & E & H)].
    + left. now apply NF in H.
    + right. apply RF in E as (a & r & -> & -> & HP); [|exact B]. exists a, r, x.
      split; [reflexivity|]. split; [exact HP|]. rewrite app_assoc in H. apply NG in H; [exact H|].
      now apply bytes_ok_app in B as [_ B].
  - intros [H|(a & r & x & -> & HP & HM)].
    + apply (NF p s B) in H. now rewrite H.
    + assert (E : f (p ++ a ++ r) (length p) = Ok (x, length (p ++ a))).
      { apply RF; [exact B|]. exists a, r. auto. }
      rewrite E. cbn [bind]. rewrite app_assoc. apply NG; [|exact HM]. now apply bytes_ok_app in B as [_ B].
Qed.

Lemma reads_fail {X} : reads (fun _ _ => @fail (X * nat)) (fun _ _ _ => False).
Proof. intros p s x o B. split; [discriminate|]. intros (a & r & _ & _ & []). Qed.

Lemma reads_ok {X} (x : X) : reads (fun _ o => Ok (x, o)) (fun a y r => a = [] /\ y = x).
Proof.
  intros p s y o B. split.
  - intros E. apply Ok_inj in E. injection E as <- <-. exists [], s. rewrite app_nil_r. auto.
  - intros (a & r & -> & -> & -> & ->). now rewrite app_nil_r.
Qed.

Lemma panics_ok {X} (x : X) : panics (fun _ o => Ok (x, o)) (fun _ => False).
Proof. intros p s B. split; [discriminate|intros []]. Qed.

(** ** Primitive readers *)

Lemma sub_at (p s : bytes) i n : sub (p ++ s) (length p + i) n = sub s i n.
Proof.
  unfold sub. rewrite skipn_app, skipn_all2 by lia. cbn [app]. do 2 f_equal. lia.
Qed.

Lemma sub_at0 (p s : bytes) n : sub (p ++ s) (length p) n = firstn n s.
Proof. rewrite <- (Nat.add_0_r (length p)), sub_at. reflexivity. Qed.

Lemma nth_at (p s : bytes) : nth (length p) (p ++ s) 0 = hd 0 s.
Proof. rewrite app_nth2, Nat.sub_diag by lia. now destruct s. Qed.

Lemma slice_at (p s : bytes) n : slice (p ++ s) (length p) (length p + n) =
  if (n <=? length s)%nat then Ok (firstn n s) else Panic.
Proof.
  unfold slice. rewrite app_length.
  destruct (Nat.leb_spec n (length s)); destruct (Nat.leb_spec (length p) (length p + n));
    destruct (Nat.leb_spec (length p + n) (length p + length s)); try lia; cbn [andb]; [|reflexivity].
  rewrite Nat.add_comm, Nat.add_sub, sub_at0. reflexivity.
Qed.

Lemma slice_from_at (p s : bytes) : slice_from (p ++ s) (length p) = Ok s.
Proof.
  unfold slice_from. rewrite app_length. destruct (Nat.leb_spec (length p) (length p + length s)); [|lia].
  now rewrite skipn_app, skipn_all, Nat.sub_diag.
Qed.

Lemma firstn_app_len {A} (a r : list A) n : length a = n -> firstn n (a ++ r) = a.
Proof. intros <-. now rewrite firstn_app, firstn_all, Nat.sub_diag, app_nil_r. Qed.

Lemma skipn_app_len {A} (a r : list A) n : length a = n -> skipn n (a ++ r) = r.
Proof. intros <-. now rewrite skipn_app, skipn_all, Nat.sub_diag. Qed.

(** A reader that takes [n] bytes if they are there and gives up with [e] if not. *)
Definition taking {X} (f : bytes -> nat -> res (X * nat)) n (v : bytes -> X) (e : res (X * nat)) : Prop :=
  forall p s, f (p ++ s) (length p) =
    if (n <=? length s)%nat then Ok (v (firstn n s), (length p + n)%nat) else e.

Lemma reads_taking {X} (f : bytes -> nat -> res (X * nat)) n v e :
  taking f n v e -> (forall x, e <> Ok x) -> reads f (fun a x r => length a = n /\ x = v a).
Proof.
  intros T N p s x o B. rewrite T. split.
  - destruct (Nat.leb_spec n (length s)) as [L|L]; [|intros E; now apply N in E].
    intros E. apply Ok_inj in E. injection E as <- <-.
    exists (firstn n s), (skipn n s). rewrite firstn_skipn, app_length, firstn_length.
    split; [reflexivity|]. split; [lia|]. split; [lia|reflexivity].
  - intros (a & r & -> & -> & L & ->). rewrite !app_length.
    destruct (Nat.leb_spec n (length a + length r)); [|lia]. rewrite firstn_app_len by exact L.
    now rewrite L.
Qed.

Lemma panics_taking {X} (f : bytes -> nat -> res (X * nat)) n v :
  taking f n v Panic -> panics f (fun s => (length s < n)%nat).
Proof.
  intros T p s B. rewrite T. destruct (Nat.leb_spec n (length s)); split; try discriminate; try lia; auto.
Qed.

Lemma panics_never {X} (f : bytes -> nat -> res (X * nat)) n v e :
  taking f n v (Err e) -> panics f (fun _ => False).
Proof. intros T p s B. rewrite T. destruct (_ <=? _)%nat; split; try discriminate; intros []. Qed.

Lemma take_uint8 : taking read_uint8 1 (fun a => hd 0 a) (Err EEOF).
Proof.
  intros p s. unfold read_uint8. rewrite app_length, nth_at.
  destruct (Nat.leb_spec (length p + length s) (length p)), (Nat.leb_spec 1 (length s)); try lia; [reflexivity|].
  destruct s; [cbn [length] in *; lia|reflexivity].
Qed.

Lemma take_bytes n : taking (fun d o => read_bytes d o n) n (fun a => a) (Err EEOF).
Proof.
  intros p s. unfold read_bytes. rewrite app_length, sub_at0.
  destruct (Nat.ltb_spec (length p + length s) (length p + n)), (Nat.leb_spec n (length s)); try lia; reflexivity.
Qed.

Lemma take_vu_time : taking read_vu_time 4 num (Err EEOF).
Proof.
  intros p s. unfold read_vu_time. rewrite app_length, sub_at0, num_be.
  destruct (Nat.ltb_spec (length p + length s) (length p + 4)), (Nat.leb_spec 4 (length s)); try lia; reflexivity.
Qed.

Lemma take_header : taking read_header 6
  (fun a => (num (sub a 0 2), num (sub a 2 2), num (sub a 4 2))) fail.
Proof.
  intros p s. unfold read_header. rewrite app_length, sub_at0, !sub_at, !num_be.
  destruct (Nat.ltb_spec (length p + length s) (length p + 6)), (Nat.leb_spec 6 (length s)); try lia; [reflexivity|].
  cbn [negb guard bind]. do 6 (destruct s as [|? s]; [cbn [length] in *; lia|]). reflexivity.
Qed.

(** ** Repetition *)

Lemma reads_records {X} (f : bytes -> nat -> res (X * nat)) k (R : bytes -> X -> Prop) :
  reads f (fun a x _ => length a = k /\ R a x) -> forall n,
  reads (fun d o => parse_records f d n o)
    (fun a xs _ => exists bs, a = concat bs /\ length bs = n /\ Forall (fun b => length b = k) bs /\ Forall2 R bs xs).
Proof.
  intros RF. induction n as [|n IH].
  - cbn [parse_records]. eapply reads_weaken; [exact (reads_ok [])|].
    intros a x r B. split.
    + intros [-> ->]. exists []. auto.
    + intros (bs & -> & L & _ & F2). destruct bs; [|discriminate L]. inversion F2. auto.
  - cbn [parse_records].
    assert (G : forall x, reads (fun d o => let* (xs, o) := parse_records f d n o in Ok (x :: xs, o))
      (fun a ys r => exists a1 a2 xs, a = a1 ++ a2 /\
         (exists bs, a1 = concat bs /\ length bs = n /\ Forall (fun b => length b = k) bs /\ Forall2 R bs xs) /\
         (a2 = [] /\ ys = x :: xs))).
    { intros x. apply (reads_bind _ (fun xs _ o => Ok (x :: xs, o)) _ (fun xs a ys r => a = [] /\ ys = x :: xs) IH).
      intros xs. apply reads_ok. }
    eapply reads_weaken; [exact (reads_bind _ _ _ _ RF G)|].
    intros a xs r B. split.
    + intros (a1 & a2 & x & -> & [L HR] & b1 & b2 & ys & -> & (bs & -> & Ln & FL & F2) & -> & ->).
      exists (a1 :: bs). cbn [concat length]. rewrite app_nil_r. split; [reflexivity|].
      split; [lia|]. split; constructor; auto.
    + intros (bs & -> & L & FL & F2). destruct bs as [|b bs]; [discriminate L|].
      apply Forall_cons_iff in FL as [Lb FL]. inversion F2 as [|? x ? ys HR F2']; subst.
      exists b, (concat bs), x. split; [reflexivity|]. split; [auto|].
      exists (concat bs), [], ys. split; [now rewrite app_nil_r|]. split; [|auto].
      exists bs. injection L as L. auto.
Qed.

(** A fixed-size reader that always succeeds on enough bytes and panics on fewer. *)
Lemma panics_records {X} (f : bytes -> nat -> res (X * nat)) k (R : bytes -> X -> Prop) :
  reads f (fun a x _ => length a = k /\ R a x) -> panics f (fun s => (length s < k)%nat) ->
  (forall a, bytes_ok a -> length a = k -> exists x, R a x) -> forall n,
  panics (fun d o => parse_records f d n o) (fun s => (length s < n * k)%nat).
Proof.
  intros RF NF TOT. induction n as [|n IH].
  - cbn [parse_records]. eapply panics_weaken; [exact (panics_ok [])|]. intros s B. lia.
  - cbn [parse_records].
    assert (G : forall x, panics (fun d o => let* (xs, o) := parse_records f d n o in Ok (x :: xs, o))
      (fun s => (length s < n * k)%nat \/ exists a r xs, s = a ++ r /\
         (exists bs, a = concat bs /\ length bs = n /\ Forall (fun b => length b = k) bs /\ Forall2 R bs xs) /\
         False)).
    { intros x. apply (panics_bind _ (fun xs _ o => Ok (x :: xs, o)) _ _ (fun _ _ => False) (reads_records f k R RF n) IH).
      intros xs. apply panics_ok. }
    eapply panics_weaken; [exact (panics_bind _ _ _ _ _ RF NF G)|].
    intros s B. split.
    + intros [L|(a & r & x & -> & [La HR] & [L|(? & ? & ? & _ & _ & [])])]; [lia|].
      rewrite app_length. lia.
    + intros L. destruct (Nat.ltb_spec (length s) k) as [S|S]; [now left|right].
      exists (firstn k s), (skipn k s).
      destruct (TOT (firstn k s)) as (x & Hx).
      { rewrite <- (firstn_skipn k s) in B. now apply bytes_ok_app in B as [B _]. }
      { rewrite firstn_length. lia. }
      exists x. rewrite firstn_skipn, firstn_length. split; [reflexivity|]. split; [split; [lia|exact Hx]|].
      left. rewrite skipn_length. lia.
Qed.

(** ** Scanned records *)

Lemma scan_records_at {X} (un : bytes -> res X) k p s n : (0 < k <= max_token_size)%nat ->
  scan_records un k (p ++ s) n (length p) =
  let* xs := map_res un (firstn n (chunks k s)) in Ok (xs, (length p + length xs * k)%nat).
Proof.
  intros K. unfold scan_records. rewrite slice_from_at. cbn [bind].
  destruct (scan_fixed_spec k s K) as (ts & sc & -> & <-).
  assert (E : forall l, map_res (fun t => un (tok_bytes t)) l = map_res un (map tok_bytes l)).
  { induction l as [|t l IH]; [reflexivity|]. cbn [map_res map]. destruct (un (tok_bytes t)); cbn [bind]; [|reflexivity..].
    now rewrite IH. }
  rewrite E, firstn_map. destruct (map_res un _); cbn [bind]; [|reflexivity..].
  now destruct (n <? length ts)%nat.
Qed.

Lemma chunks_prefix k bs r : (0 < k)%nat -> Forall (fun b => length b = k) bs ->
  chunks k (concat bs ++ r) = bs ++ chunks k r.
Proof.
  intros K. induction 1 as [|b bs L F IH]; [reflexivity|]. cbn [concat]. rewrite <- app_assoc.
  rewrite chunks_cons by (rewrite ?app_length; lia).
  now rewrite firstn_app_len, skipn_app_len, IH by exact L.
Qed.

Lemma chunks_split k s n : (0 < k)%nat -> exists bs r, s = concat bs ++ r /\ firstn n (chunks k s) = bs /\
  Forall (fun b => length b = k) bs /\ (length bs = n \/ (length bs < n)%nat /\ (length r < k)%nat).
Proof.
  intros K. revert s. induction n as [|n IH]; intros s.
  - exists [], s. auto.
  - destruct (Nat.ltb_spec (length s) k) as [L|L].
    + exists [], s. rewrite chunks_nil by lia. cbn [firstn concat length]. repeat split; auto. right. lia.
    + rewrite chunks_cons by lia. cbn [firstn]. destruct (IH (skipn k s)) as (bs & r & E & -> & F1 & C).
      exists (firstn k s :: bs), r. cbn [concat length]. rewrite <- app_assoc, <- E, firstn_skipn.
      split; [reflexivity|]. split; [reflexivity|]. split; [constructor; [rewrite firstn_length; lia|exact F1]|]. lia.
Qed.

Lemma reads_scanned {X} (un : bytes -> res X) k n : (0 < k <= max_token_size)%nat ->
  reads (fun d o => scan_records un k d n o)
    (fun a xs r => exists bs, a = concat bs /\ Forall (fun b => length b = k) bs /\
       Forall2 (fun b x => un b = Ok x) bs xs /\ (length bs = n \/ (length bs < n)%nat /\ (length r < k)%nat)).
Proof.
  intros K p s xs o B. rewrite scan_records_at by exact K. split.
  - intros H. apply bind_ok in H as (ys & E & H). apply Ok_inj in H. injection H as -> <-.
    destruct (chunks_split k s n) as (bs & r & -> & E2 & F1 & C); [lia|]. rewrite E2 in E. apply map_res_ok in E.
    exists (concat bs), r. split; [reflexivity|]. split.
    { rewrite app_length, (concat_length_uniform k) by exact F1. f_equal. now rewrite (forall2_length _ _ _ E). }
    exists bs. auto.
  - intros (a & r & -> & -> & bs & -> & F1 & F2 & C). rewrite chunks_prefix by (assumption || lia).
    assert (E : firstn n (bs ++ chunks k r) = bs).
    { destruct C as [C|[C1 C2]]; [now apply firstn_app_len|]. rewrite chunks_nil, app_nil_r by lia.
      apply firstn_all2. lia. }
    rewrite E. assert (M : map_res un bs = Ok xs) by now apply map_res_ok.
    rewrite M. cbn [bind]. rewrite app_length, (concat_length_uniform k) by exact F1.
    now rewrite (forall2_length _ _ _ F2).
Qed.

Lemma panics_scanned {X} (un : bytes -> res X) k n : (0 < k <= max_token_size)%nat -> (forall b, un b <> Panic) ->
  panics (fun d o => scan_records un k d n o) (fun _ => False).
Proof.
  intros K N p s B. rewrite scan_records_at by exact K. split; [|intros []]. intros H.
  apply bind_panic in H as [H|(? & _ & H)]; [|discriminate H].
  revert H. apply map_res_no_panic. intros b _. apply N.
Qed.

(** ** Records cut out with a slice expression *)

Definition item {X} (un : bytes -> res X) (k : nat) (d : bytes) (o : nat) : res (X * nat) :=
  let* b := slice d o (o + k) in
  let* x := un b in
  Ok (x, (o + k)%nat).

Lemma reads_item {X} (un : bytes -> res X) k : reads (item un k) (fun a x _ => length a = k /\ un a = Ok x).
Proof.
  intros p s x o B. unfold item. rewrite slice_at. split.
  - destruct (Nat.leb_spec k (length s)) as [L|L]; [|discriminate]. cbn [bind]. intros H.
    apply bind_ok in H as (y & E & H). apply Ok_inj in H. injection H as -> <-.
    exists (firstn k s), (skipn k s). rewrite firstn_skipn, app_length, firstn_length.
    split; [reflexivity|]. split; [lia|]. split; [lia|exact E].
  - intros (a & r & -> & -> & L & E). rewrite !app_length.
    destruct (Nat.leb_spec k (length a + length r)); [|lia]. rewrite firstn_app_len by exact L.
    cbn [bind]. rewrite E. cbn [bind]. now rewrite L.
Qed.

Lemma panics_item {X} (un : bytes -> res X) k : (forall b, un b <> Panic) ->
  panics (item un k) (fun s => (length s < k)%nat).
Proof.
  intros N p s B. unfold item. rewrite slice_at. destruct (Nat.leb_spec k (length s)) as [L|L].
  - split; [|lia]. cbn [bind]. intros H. apply bind_panic in H as [H|(? & _ & H)]; [now apply N in H|discriminate H].
  - split; [auto|reflexivity].
Qed.

(** ** A count of one byte before the records *)

Definition counted {X} (f : bytes -> nat -> res (X * nat)) (d : bytes) (o : nat) : res (list X * nat) :=
  let* (n, o) := read_uint8 d o in parse_records f d (Z.to_nat n) o.

Definition counts {X} k (R : bytes -> X -> Prop) (a : bytes) (xs : list X) : Prop :=
  exists bs, a = [Z.of_nat (length bs)] ++ concat bs /\ Forall (fun b => length b = k) bs /\ Forall2 R bs xs.

Lemma one_byte (a : bytes) : length a = 1%nat -> a = [hd 0 a].
Proof. destruct a as [|b [|? ?]]; try discriminate. reflexivity. Qed.

Lemma reads_counted {X} (f : bytes -> nat -> res (X * nat)) k R :
  reads f (fun a x _ => length a = k /\ R a x) -> reads (counted f) (fun a xs _ => counts k R a xs).
Proof.
  intros RF. unfold counted. eapply reads_weaken.
  - apply (reads_bind read_uint8 (fun n d o => parse_records f d (Z.to_nat n) o)).
    + eapply reads_taking; [exact take_uint8|discriminate].
    + intros n. apply (reads_records f k R RF).
  - intros a xs r B. split.
    + intros (a1 & a2 & n & -> & [L ->] & bs & -> & Lb & F1 & F2). exists bs.
      rewrite (one_byte a1 L) in *. cbn [hd] in *. split; [|auto].
      rewrite !bytes_ok_app, bytes_ok_cons in B. unfold byte_ok in B. f_equal. f_equal. lia.
    + intros (bs & -> & F1 & F2). exists [Z.of_nat (length bs)], (concat bs), (Z.of_nat (length bs)).
      split; [reflexivity|]. split; [auto|]. exists bs. rewrite Nat2Z.id. auto.
Qed.

Lemma panics_counted {X} (f : bytes -> nat -> res (X * nat)) k R :
  reads f (fun a x _ => length a = k /\ R a x) -> panics f (fun s => (length s < k)%nat) ->
  (forall a, bytes_ok a -> length a = k -> exists x, R a x) ->
  panics (counted f) (fun s => exists n r, s = [n] ++ r /\ Z.of_nat (length r) < n * Z.of_nat k).
Proof.
  intros RF NF TOT. unfold counted. eapply panics_weaken.
  - eapply (panics_bind read_uint8 (fun n d o => parse_records f d (Z.to_nat n) o) _ (fun _ => False)
      (fun n s => (length s < Z.to_nat n * k)%nat)).
    + eapply reads_taking; [exact take_uint8|discriminate].
    + eapply panics_never. exact take_uint8.
    + intros n. now apply (panics_records f k R).
  - intros s B. split.
    + intros [[]|(a & r & n & -> & [L ->] & H)]. rewrite (one_byte a L) in *. cbn [hd] in *.
      exists (hd 0 a), r. split; [reflexivity|].
      rewrite bytes_ok_app, bytes_ok_cons in B. unfold byte_ok in B. destruct B as [[B _] _].
      revert H. generalize (hd 0 a) B. intros z Bz H. nia.
    + intros (n & r & -> & H). right. exists [n], r, n. split; [reflexivity|]. split; [auto|].
      rewrite bytes_ok_app, bytes_ok_cons in B. unfold byte_ok in B. destruct B as [[B _] _]. nia.
Qed.

(** ** The parts of a first-generation day *)

Lemma change_np b : unmarshal_activity_change b <> Panic.
Proof. unfold unmarshal_activity_change. np. Qed.

Lemma spec_cond_np b : unmarshal_spec_cond b <> Panic.
Proof. unfold unmarshal_spec_cond. np. destruct (unmarshal_enum _ _); discriminate. Qed.

Lemma vu_time_np d o : read_vu_time d o <> Panic.
Proof. unfold read_vu_time. destruct (_ <? _)%nat; discriminate. Qed.

Lemma odometer_np b : unmarshal_odometer b <> Panic.
Proof. unfold unmarshal_odometer. np. Qed.

Lemma day_place_np b : unmarshal_day_place b <> Panic.
Proof.
  unfold unmarshal_day_place. apply bind_np; [apply guard_no_panic|intros _].
  apply bind_np; [apply vu_time_np|intros [t o]]. apply bind_np; [apply odometer_np|]. discriminate.
Qed.

Lemma day_iw_short cm b : length b = 126%nat -> unmarshal_day_iw cm b = fail.
Proof. intros L. unfold unmarshal_day_iw. rewrite L. reflexivity. Qed.

Lemma k126 : (0 < 126 <= max_token_size)%nat.
Proof. pose proof max_eq. lia. Qed.

Lemma reads_iw_data cm : reads (parse_iw_data cm)
  (fun a xs r => exists k, a = [k] /\ xs = [] /\ (k = 0 \/ (length r < 126)%nat)).
Proof.
  unfold parse_iw_data. eapply reads_weaken.
  - apply (reads_bind read_uint8 (fun n d o => scan_records (unmarshal_day_iw cm) 126 d (Z.to_nat n) o)).
    + eapply reads_taking; [exact take_uint8|discriminate].
    + intros n. apply reads_scanned. exact k126.
  - intros a xs r B. split.
    + intros (a1 & a2 & n & -> & [L ->] & bs & -> & F1 & F2 & C).
      destruct F2 as [|b x bs xs E F2].
      * exists (hd 0 a1). cbn [concat]. rewrite app_nil_r. split; [now apply one_byte|]. split; [reflexivity|].
        rewrite (one_byte a1 L) in *. cbn [hd] in *. rewrite !bytes_ok_app, bytes_ok_cons in B. unfold byte_ok in B.
        cbn [length] in C. lia.
      * apply Forall_cons_iff in F1 as [Lb _]. rewrite day_iw_short in E by exact Lb. discriminate E.
    + intros (k & -> & -> & C). exists [k], [], k. split; [reflexivity|]. split; [auto|].
      exists []. cbn [concat length]. split; [reflexivity|]. split; [constructor|]. split; [constructor|].
      rewrite !bytes_ok_app, bytes_ok_cons in B. unfold byte_ok in B. lia.
Qed.

Lemma panics_iw_data cm : panics (parse_iw_data cm) (fun _ => False).
Proof.
  unfold parse_iw_data. eapply panics_weaken.
  - eapply (panics_bind read_uint8 (fun n d o => scan_records (unmarshal_day_iw cm) 126 d (Z.to_nat n) o) _
      (fun _ => False) (fun _ _ => False)).
    + eapply reads_taking; [exact take_uint8|discriminate].
    + eapply panics_never. exact take_uint8.
    + intros n. apply panics_scanned; [exact k126|]. intros b.
      unfold unmarshal_day_iw. apply bind_np; [apply guard_no_panic|intros _].
      apply bind_np; [apply unmarshal_holder_name_no_panic|intros h].
      apply bind_np; [apply fcn_np|intros c].
      apply bind_np; [unfold unmarshal_date; np|intros e].
      apply bind_np; [apply vu_time_np|intros [? ?]].
      apply bind_np; [apply odometer_np|intros ?].
      apply bind_np; [apply vu_time_np|intros [? ?]].
      apply bind_np; [apply odometer_np|intros ?].
      apply bind_np; [apply previous_np|intros ?]. discriminate.
  - intros s B. split; [|intros []]. intros [[]|(? & ? & ? & _ & _ & [])].
Qed.

(** What is computed from the bytes of a day, in the order they are read. *)
Definition day1_body cm (d : bytes) (o : nat) : res (vu_day * nat) :=
  let* (t, o) := read_vu_time d o in
  let* (odo, o) := item unmarshal_odometer 3 d o in
  let* (iw, o) := parse_iw_data cm d o in
  let* (cs, o) := counted parse_change d o in
  let* (ps, o) := counted parse_place d o in
  let* (ks, o) := counted parse_condition d o in
  let* (sig, o) := read_bytes d o 128 in
  Ok (mkDay GENERATION_1 VERSION_UNSPECIFIED (unix_time t) odo iw cs ps [] ks [] [] (Some sig) None, o).

Lemma bind_assoc {A B C} (x : res A) (f : A -> res B) (g : B -> res C) :
  bind (bind x f) g = bind x (fun a => bind (f a) g).
Proof. now destruct x. Qed.

Lemma bind_ext {A B} (x : res A) (f g : A -> res B) : (forall a, f a = g a) -> bind x f = bind x g.
Proof. intros E. destruct x; cbn [bind]; auto. Qed.

Lemma day1_eq cm d start :
  unmarshal_day_gen1 cm d start = let* (x, o) := day1_body cm d start in Ok (x, (o - start)%nat).
Proof.
  unfold unmarshal_day_gen1, day1_body, item, parse_changes, parse_places, parse_conditions, counted.
  repeat (rewrite ?bind_assoc; apply bind_ext; intros;
    repeat match goal with p : (_ * nat)%type |- _ => destruct p end; cbn [bind]).
  reflexivity.
Qed.

(** ** Record arrays *)

Definition array_at {X} (ty size : Z) (g : nat -> bytes -> nat -> res (X * nat)) (d : bytes) (o : nat) : res (X * nat) :=
  let* (h, o) := read_header d o in
  let '(t, s, n) := h in
  let* _ := guard (t =? ty) in
  let* _ := guard (s =? size) in
  g (Z.to_nat n) d o.

Lemma num2 (a : bytes) z : bytes_ok a -> length a = 2%nat -> 0 <= z < 256 -> (num a = z <-> a = [0; z]).
Proof.
  intros B L R. destruct a as [|x [|y [|? ?]]]; try discriminate L. rewrite !bytes_ok_cons in B. unfold byte_ok in B.
  unfold num. cbn [fold_left]. split.
  - intros E. assert (x = 0) by lia. assert (y = z) by lia. congruence.
  - intros E. injection E as -> ->. lia.
Qed.

Lemma header_parts (a : bytes) : length a = 6%nat -> exists t s k, a = t ++ s ++ k /\ length t = 2%nat /\ length s = 2%nat /\
  length k = 2%nat /\ sub a 0 2 = t /\ sub a 2 2 = s /\ sub a 4 2 = k.
Proof.
  intros L. do 6 (destruct a as [|? a]; [discriminate L|]). destruct a; [|discriminate L].
  exists [z; z0], [z1; z2], [z3; z4]. repeat split; reflexivity.
Qed.

Lemma header_subs (t s k : bytes) : length t = 2%nat -> length s = 2%nat -> length k = 2%nat ->
  sub (t ++ s ++ k) 0 2 = t /\ sub (t ++ s ++ k) 2 2 = s /\ sub (t ++ s ++ k) 4 2 = k.
Proof.
  intros L1 L2 L3. destruct t as [|? [|? [|? ?]]]; try discriminate L1. destruct s as [|? [|? [|? ?]]]; try discriminate L2.
  destruct k as [|? [|? [|? ?]]]; try discriminate L3. repeat split; reflexivity.
Qed.

Lemma reads_array {X} ty size (g : nat -> bytes -> nat -> res (X * nat)) Q :
  0 <= ty < 256 -> 0 <= size < 256 -> (forall n, reads (g n) (Q n)) ->
  reads (array_at ty size g) (fun a x r => exists k a2, a = [0; ty] ++ [0; size] ++ k ++ a2 /\ length k = 2%nat /\
    Q (Z.to_nat (num k)) a2 x r).
Proof.
  intros RT RS RG. unfold array_at. eapply reads_weaken.
  - eapply (reads_bind read_header (fun h d o => let '(t, s, n) := h in
      let* _ := guard (t =? ty) in let* _ := guard (s =? size) in g (Z.to_nat n) d o) _
      (fun h a x r => fst (fst h) = ty /\ snd (fst h) = size /\ Q (Z.to_nat (snd h)) a x r)).
    + eapply reads_taking; [exact take_header|discriminate].
    + intros [[t s] n] p sf x o B. cbn [fst snd].
      destruct (Z.eqb_spec t ty) as [->|N].
      * cbn [guard bind]. destruct (Z.eqb_spec s size) as [->|N]; cbn [guard bind].
        -- rewrite (RG _ p sf x o B). split; intros (a & r & -> & -> & H); exists a, r; tauto.
        -- split; [discriminate|]. intros (a & r & _ & _ & _ & C & _). congruence.
      * cbn [guard bind]. split; [discriminate|]. intros (a & r & _ & _ & C & _). congruence.
  - intros a x r B. split.
    + intros (a1 & a2 & h & -> & [L ->] & E1 & E2 & HQ). cbn [fst snd] in *.
      destruct (header_parts a1 L) as (t & s & k & -> & L1 & L2 & L3 & S1 & S2 & S3). rewrite S1, S2, S3 in *.
      rewrite !bytes_ok_app in B. destruct B as [[[B1 [B2 B3]] _] _].
      apply num2 in E1; [|assumption..]. apply num2 in E2; [|assumption..]. subst t s.
      exists k, a2. rewrite <- !app_assoc. auto.
    + intros (k & a2 & -> & L & HQ). exists ([0; ty] ++ [0; size] ++ k), a2, (ty, size, num k).
      split; [rewrite <- !app_assoc; reflexivity|]. cbn [fst snd]. split.
      * split; [rewrite !app_length, L; reflexivity|].
        destruct (header_subs [0; ty] [0; size] k) as (-> & -> & ->); try reflexivity; try exact L.
      * split; [reflexivity|]. split; [reflexivity|]. exact HQ.
Qed.

Lemma panics_array {X} ty size (g : nat -> bytes -> nat -> res (X * nat)) N :
  0 <= ty < 256 -> 0 <= size < 256 -> (forall n, panics (g n) (N n)) ->
  panics (array_at ty size g) (fun s => exists k r, s = [0; ty] ++ [0; size] ++ k ++ r /\ length k = 2%nat /\
    N (Z.to_nat (num k)) r).
Proof.
  intros RT RS NG. unfold array_at. eapply panics_weaken.
  - eapply (panics_bind read_header (fun h d o => let '(t, s, n) := h in
      let* _ := guard (t =? ty) in let* _ := guard (s =? size) in g (Z.to_nat n) d o) _ (fun _ => False)
      (fun h s => fst (fst h) = ty /\ snd (fst h) = size /\ N (Z.to_nat (snd h)) s)).
    + eapply reads_taking; [exact take_header|discriminate].
    + eapply panics_never. exact take_header.
    + intros [[t s] n] p sf B. cbn [fst snd].
      destruct (Z.eqb_spec t ty) as [->|C].
      * cbn [guard bind]. destruct (Z.eqb_spec s size) as [->|C]; cbn [guard bind].
        -- rewrite (NG _ p sf B). tauto.
        -- split; [discriminate|]. tauto.
      * cbn [guard bind]. split; [discriminate|]. tauto.
  - intros s B. split.
    + intros [[]|(a1 & r & h & -> & [L ->] & E1 & E2 & HN)]. cbn [fst snd] in *.
      destruct (header_parts a1 L) as (t & s & k & -> & L1 & L2 & L3 & S1 & S2 & S3). rewrite S1, S2, S3 in *.
      rewrite !bytes_ok_app in B. destruct B as [[B1 [B2 B3]] _].
      apply num2 in E1; [|assumption..]. apply num2 in E2; [|assumption..]. subst t s.
      exists k, r. rewrite <- !app_assoc. auto.
    + intros (k & r & -> & L & HN). right. exists ([0; ty] ++ [0; size] ++ k), r, (ty, size, num k).
      split; [rewrite <- !app_assoc; reflexivity|]. cbn [fst snd]. split.
      * split; [rewrite !app_length, L; reflexivity|].
        destruct (header_subs [0; ty] [0; size] k) as (-> & -> & ->); try reflexivity; try exact L.
      * split; [reflexivity|]. split; [reflexivity|]. exact HN.
Qed.

(** Arrays that announce their records truthfully. *)
Definition announces (k : bytes) (bs : list bytes) : Prop := length k = 2%nat /\ num k = Z.of_nat (length bs).

Lemma num_nonneg k : bytes_ok k -> 0 <= num k.
Proof. intros B. rewrite num_be. apply be_range in B. lia. Qed.

Lemma reads_record_array {X} ty size (f : bytes -> nat -> res (X * nat)) n R :
  0 <= ty < 256 -> 0 <= size < 256 -> reads f (fun a x _ => length a = n /\ R a x) ->
  reads (array_at ty size (fun m d o => parse_records f d m o)) (fun a xs _ => exists k bs,
    a = [0; ty] ++ [0; size] ++ k ++ concat bs /\ announces k bs /\ Forall (fun b => length b = n) bs /\ Forall2 R bs xs).
Proof.
  intros RT RS RF. eapply reads_weaken.
  - apply (reads_array ty size _ _ RT RS (reads_records f n R RF)).
  - intros a xs r B. split.
    + intros (k & a2 & -> & L & bs & -> & Lb & F1 & F2). exists k, bs. split; [reflexivity|].
      split; [|auto]. split; [exact L|]. rewrite !bytes_ok_app in B.
      assert (0 <= num k) by (apply num_nonneg; tauto). lia.
    + intros (k & bs & -> & [L N] & F1 & F2). exists k, (concat bs). split; [reflexivity|]. split; [exact L|].
      exists bs. split; [reflexivity|]. split; [lia|]. auto.
Qed.

(** Scanned arrays: the records, and what follows if some are missing. *)
Definition announces_at_least (k : bytes) (bs : list bytes) (n : nat) (r : bytes) : Prop :=
  length k = 2%nat /\
  (num k = Z.of_nat (length bs) \/ Z.of_nat (length bs) < num k /\ (length r < n)%nat).

Lemma reads_scanned_array {X} ty size (un : bytes -> res X) n :
  0 <= ty < 256 -> 0 <= size < 256 -> (0 < n <= max_token_size)%nat ->
  reads (parse_array un ty size n) (fun a xs r => exists k bs,
    a = [0; ty] ++ [0; size] ++ k ++ concat bs /\ announces_at_least k bs n r /\
    Forall (fun b => length b = n) bs /\ Forall2 (fun b x => un b = Ok x) bs xs).
Proof.
  intros RT RS K. eapply reads_weaken.
  - eapply (reads_array ty size (fun m d o => scan_records un n d m o) _ RT RS).
    intros m. apply (reads_scanned un n m K).
  - intros a xs r B. split.
    + intros (k & a2 & -> & L & bs & -> & F1 & F2 & C). exists k, bs. split; [reflexivity|].
      split; [|auto]. split; [exact L|]. rewrite !bytes_ok_app in B.
      assert (0 <= num k) by (apply num_nonneg; tauto). lia.
    + intros (k & bs & -> & [L C] & F1 & F2). exists k, (concat bs). split; [reflexivity|]. split; [exact L|].
      exists bs. split; [reflexivity|]. split; [exact F1|]. split; [exact F2|].
      rewrite !bytes_ok_app in B. assert (0 <= num k) by (apply num_nonneg; tauto). lia.
Qed.

Lemma panics_scanned_array {X} ty size (un : bytes -> res X) n :
  0 <= ty < 256 -> 0 <= size < 256 -> (0 < n <= max_token_size)%nat -> (forall b, un b <> Panic) ->
  panics (parse_array un ty size n) (fun _ => False).
Proof.
  intros RT RS K N. eapply panics_weaken.
  - apply (panics_array ty size (fun m d o => scan_records un n d m o) (fun _ _ => False) RT RS).
    intros m. now apply panics_scanned.
  - intros s B. split; [|intros []]. intros (? & ? & _ & _ & []).
Qed.

Lemma reads_date : reads parse_date (fun a x _ => length a = 4%nat /\ x = Some (mkTs (num a) 0)).
Proof.
  apply (reads_taking parse_date 4 (fun a => unix_time (num a)) fail); [|discriminate].
  intros p s. unfold parse_date. rewrite take_vu_time, app_length.
  destruct (Nat.ltb_spec (length p + length s) (length p + 4)), (Nat.leb_spec 4 (length s)); try lia; reflexivity.
Qed.

Lemma panics_date : panics parse_date (fun _ => False).
Proof.
  intros p s B. unfold parse_date. rewrite take_vu_time. split; [|intros []].
  destruct (negb _); [|discriminate]. cbn [guard bind]. now destruct (4 <=? length s)%nat.
Qed.

Lemma card_gen_20 b : length b = 20%nat -> exists e, unmarshal_card_number_gen b = Err e.
Proof.
  intros L. unfold unmarshal_card_number_gen. rewrite L. cbn [Nat.ltb Nat.leb negb guard bind Nat.sub].
  unfold unmarshal_full_card_number. rewrite firstn_length, L. cbn [Nat.min Nat.eqb guard bind].
  destruct (unmarshal_enum generation_table (nth 19 b 0)) as [v|e|] eqn:E; cbn [bind]; [eexists; reflexivity..|].
  now apply unmarshal_enum_no_panic in E.
Qed.

(** A second-generation insertion record is never read. *)
Lemma iw_gen2_never cm d o : exists e, parse_iw_gen2 cm d o = Err e.
Proof.
  unfold parse_iw_gen2, read_bytes at 1. destruct (_ <? _)%nat; cbn [bind]; [eauto|].
  destruct (unmarshal_holder_name cm (sub d o 72)) as [h|e|] eqn:E; cbn [bind]; [|eauto|].
  - unfold read_bytes at 1. destruct (Nat.ltb_spec (length d) (o + 72 + 20)); cbn [bind]; [eauto|].
    destruct (card_gen_20 (sub d (o + 72) 20)) as (e & ->); [apply sub_length; lia|]. cbn [bind]. eauto.
  - now apply unmarshal_holder_name_no_panic in E.
Qed.

Lemma reads_iw_gen2 cm : reads (parse_iw_gen2 cm) (fun a x _ => length a = 0%nat /\ False).
Proof.
  intros p s x o B. destruct (iw_gen2_never cm (p ++ s) (length p)) as (e & ->).
  split; [discriminate|]. intros (a & r & _ & _ & _ & []).
Qed.

Lemma reads_iw_array cm : reads (parse_iw_array cm)
  (fun a xs _ => exists size, a = [0; 13] ++ size ++ [0; 0] /\ length size = 2%nat /\ xs = []).
Proof.
  unfold parse_iw_array. eapply reads_weaken.
  - eapply (reads_bind read_header (fun h d o => let '(t, _, n) := h in
      let* _ := guard (t =? 13) in parse_records (parse_iw_gen2 cm) d (Z.to_nat n) o) _
      (fun h a xs _ => fst (fst h) = 13 /\ exists bs : list bytes, a = concat bs /\ length bs = Z.to_nat (snd h) /\
         Forall (fun b => length b = 0%nat) bs /\ Forall2 (fun _ _ => False) bs xs)).
    + eapply reads_taking; [exact take_header|discriminate].
    + intros [[t s] n] p sf x o B. cbn [fst snd].
      destruct (Z.eqb_spec t 13) as [->|N]; cbn [guard bind].
      * rewrite (reads_records (parse_iw_gen2 cm) 0 (fun _ _ => False) (reads_iw_gen2 cm) (Z.to_nat n) p sf x o B).
        split; intros (a & r & -> & -> & H); exists a, r; tauto.
      * split; [discriminate|]. intros (a & r & _ & _ & C & _). congruence.
  - intros a xs r B. split.
    + intros (a1 & a2 & h & -> & [L ->] & E1 & bs & -> & Lb & _ & F2). cbn [fst snd] in *.
      destruct (header_parts a1 L) as (t & s & k & -> & L1 & L2 & L3 & S1 & S2 & S3). rewrite S1 in E1. rewrite S3 in Lb.
      rewrite !bytes_ok_app in B. destruct B as [[[B1 [B2 B3]] _] _].
      apply num2 in E1; [|assumption || lia..]. subst t.
      destruct F2 as [|? ? ? ? [] _]. cbn [length concat] in *. exists s.
      assert (E : num k = 0) by (pose proof (num_nonneg k B3); lia).
      apply num2 in E; [|assumption || lia..]. subst k. rewrite app_nil_r. auto.
    + intros (s & -> & L & ->). exists ([0; 13] ++ s ++ [0; 0]), [], (13, num s, num [0; 0]).
      split; [now rewrite app_nil_r|]. split.
      * split; [rewrite !app_length, L; reflexivity|].
        destruct (header_subs [0; 13] s [0; 0]) as (-> & -> & ->); try reflexivity; try exact L.
      * split; [reflexivity|]. exists []. repeat split; constructor.
Qed.

Lemma panics_iw_array cm : panics (parse_iw_array cm) (fun _ => False).
Proof.
  intros p s B. split; [|intros []]. unfold parse_iw_array. intros H.
  apply bind_panic in H as [H|([[[t z] n] o] & _ & H)].
  - rewrite take_header in H. now destruct (6 <=? length s)%nat.
  - apply bind_panic in H as [H|(u & _ & H)]; [now apply guard_no_panic in H|].
    destruct (Z.to_nat n); [discriminate H|]. cbn [parse_records] in H.
    destruct (iw_gen2_never cm (p ++ s) o) as (e & E). rewrite E in H. discriminate H.
Qed.

(** ** The signature *)

Lemma split_signature_stable : stable split_signature.
Proof.
  assert (S2 : forall w x : bytes, (6 <= length w)%nat -> sub (w ++ x) 2 2 = sub w 2 2).
  { intros w x L. do 6 (destruct w as [|? w]; [cbn [length] in L; lia|]). reflexivity. }
  constructor; unfold split_signature; cbv zeta.
  - intros w b n. destruct (Nat.ltb_spec (length w) 6); [discriminate|]. destruct (_ =? 0); [discriminate|].
    destruct (Nat.ltb_spec (length w) (6 + Z.to_nat (be (sub w 2 2)))); [discriminate|].
    intros E. injection E as <-. lia.
  - intros w n x b. destruct (Nat.ltb_spec (length w) 6); [discriminate|].
    rewrite app_length, S2 by assumption. destruct (Nat.ltb_spec (length w + length x) 6); [lia|].
    destruct (_ =? 0); [discriminate|].
    destruct (Nat.ltb_spec (length w) (6 + Z.to_nat (be (sub w 2 2)))); [discriminate|].
    intros E. injection E as <-.
    destruct (Nat.ltb_spec (length w + length x) (6 + Z.to_nat (be (sub w 2 2)))); [lia|reflexivity].
  - intros w e x b. destruct (Nat.ltb_spec (length w) 6); [discriminate|].
    rewrite app_length, S2 by assumption. destruct (Nat.ltb_spec (length w + length x) 6); [lia|].
    destruct (_ =? 0); [auto|]. destruct (_ <? _)%nat; discriminate.
Qed.

Lemma reads_signature : reads parse_signature (fun a sig _ => exists size count,
  a = [0; 8] ++ size ++ count ++ sig /\ length size = 2%nat /\ length count = 2%nat /\
  num size = Z.of_nat (length sig) /\ 1 <= Z.of_nat (length sig) <= 65530).
Proof.
  intros p s x o B. unfold parse_signature. rewrite slice_from_at. cbn [bind].
  pose proof (scan_spec split_signature s split_signature_stable) as SC. cbv zeta in SC.
  destruct (Scanner.scan split_signature s) as [[ts r] sc]. cbn [fst snd ideal] in SC.
  set (w := firstn max_token_size s) in *.
  assert (LW : length w = Nat.min max_token_size (length s)) by apply firstn_length.
  assert (W : (6 <= length w)%nat -> sub w 2 2 = sub s 2 2).
  { intros L. unfold w, sub. pose proof max_eq. rewrite skipn_firstn_comm, firstn_firstn. replace (Nat.min 2 (max_token_size - 2)) with 2%nat by lia. reflexivity. }
  pose proof max_eq as ME. clearbody w. split.
  - unfold split_signature in SC at 1. cbv zeta in SC.
    destruct (Nat.ltb_spec (length w) 6) as [L|L].
    { injection SC as SC1 SC2. destruct ts; [|discriminate SC1]. intros H. apply bind_ok in H as (? & _ & H). discriminate H. }
    rewrite W in SC by exact L. destruct (Z.eqb_spec (be (sub s 2 2)) 0) as [E0|E0].
    { injection SC as SC1 SC2. destruct ts; [|discriminate SC1]. intros H. apply bind_ok in H as (? & _ & H). discriminate H. }
    destruct (Nat.ltb_spec (length w) (6 + Z.to_nat (be (sub s 2 2)))) as [L2|L2].
    { injection SC as SC1 SC2. destruct ts; [|discriminate SC1]. intros H. apply bind_ok in H as (? & _ & H). discriminate H. }
    apply (f_equal fst) in SC. cbn [fst] in SC. destruct ts as [|t ts]; [discriminate SC|].
    apply (f_equal (hd [])) in SC. cbn [map hd] in SC. rename SC into SC1.
    assert (SS : exists h z c q, s = h ++ z ++ c ++ q /\ length h = 2%nat /\ length z = 2%nat /\ length c = 2%nat).
    { exists (firstn 2 s), (firstn 2 (skipn 2 s)), (firstn 2 (skipn 4 s)), (skipn 6 s).
      do 6 (destruct s as [|? s]; [cbn [length] in LW; lia|]). auto. }
    destruct SS as (h & z & c & q & -> & L1 & Lz & Lc).
    assert (Z2 : sub (h ++ z ++ c ++ q) 2 2 = z).
    { destruct h as [|? [|? [|? ?]]]; try discriminate L1. destruct z as [|? [|? [|? ?]]]; try discriminate Lz. reflexivity. }
    rewrite Z2, <- num_be in *. rewrite !bytes_ok_app in B. destruct B as (B1 & B2 & B3 & B4).
    pose proof (num_nonneg z B2) as NZ. rewrite !app_length in LW.
    destruct (cut_at q (Z.to_nat (num z)) (length q - Z.to_nat (num z))) as (sg & rest & -> & Ls & Lr); [lia|].
    assert (TK : tok_bytes t = h ++ z ++ c ++ sg).
    { rewrite SC1. replace (h ++ z ++ c ++ sg ++ rest) with ((h ++ z ++ c ++ sg) ++ rest) by (rewrite <- !app_assoc; reflexivity).
      apply firstn_app_len. rewrite !app_length. lia. }
    rewrite TK. intros H. apply bind_ok in H as (u & G & H). apply guard_ok in G. apply Z.eqb_eq in G.
    assert (Hd : sub (h ++ z ++ c ++ sg) 0 2 = h).
    { destruct h as [|? [|? [|? ?]]]; try discriminate L1. reflexivity. }
    rewrite Hd in G. apply num2 in G; [|assumption || lia..]. subst h.
    assert (Sk : skipn 6 ([0; 8] ++ z ++ c ++ sg) = sg).
    { rewrite !app_assoc. apply skipn_app_len. rewrite !app_length, Lz, Lc. reflexivity. }
    rewrite Sk in H. apply Ok_inj in H. injection H as <- <-. exists ([0; 8] ++ z ++ c ++ sg), rest. split; [rewrite <- !app_assoc; reflexivity|].
    split; [rewrite (app_length p); reflexivity|]. exists z, c. split; [reflexivity|]. split; [exact Lz|]. split; [exact Lc|].
    split; [lia|]. rewrite app_length in LW. change (length [0; 8]) with 2%nat in LW. lia.
  - intros (a & rest & -> & -> & z & c & -> & Lz & Lc & N & R).
    assert (LS : length (([0; 8] ++ z ++ c ++ x) ++ rest) = (6 + length x + length rest)%nat)
      by (rewrite !app_length, Lz, Lc; reflexivity).
    assert (Z2 : sub (([0; 8] ++ z ++ c ++ x) ++ rest) 2 2 = z).
    { destruct z as [|? [|? [|? ?]]]; try discriminate Lz. reflexivity. }
    unfold split_signature in SC at 1. cbv zeta in SC. rewrite LS in LW.
    destruct (Nat.ltb_spec (length w) 6) as [L|L]; [lia|]. rewrite W, Z2, <- num_be, N in SC by exact L.
    destruct (Z.eqb_spec (Z.of_nat (length x)) 0); [lia|]. rewrite Nat2Z.id in SC.
    destruct (Nat.ltb_spec (length w) (6 + length x)); [lia|].
    apply (f_equal fst) in SC. cbn [fst] in SC. destruct ts as [|t ts]; [discriminate SC|].
    apply (f_equal (hd [])) in SC. cbn [map hd] in SC. rename SC into SC1.
    assert (TK : tok_bytes t = [0; 8] ++ z ++ c ++ x).
    { rewrite SC1. apply firstn_app_len. rewrite !app_length, Lz, Lc. reflexivity. }
    rewrite TK. change (be (sub ([0; 8] ++ z ++ c ++ x) 0 2)) with 8. cbn [Z.eqb Pos.eqb guard bind].
    assert (Sk : skipn 6 ([0; 8] ++ z ++ c ++ x) = x).
    { rewrite !app_assoc. apply skipn_app_len. rewrite !app_length, Lz, Lc. reflexivity. }
    rewrite Sk, (app_length p). reflexivity.
Qed.

Lemma panics_signature : panics parse_signature (fun _ => False).
Proof.
  intros p s B. unfold parse_signature. rewrite slice_from_at. cbn [bind]. split; [|intros []].
  pose proof (scan_spec split_signature s split_signature_stable) as SC. cbv zeta in SC.
  destruct (Scanner.scan split_signature s) as [[ts r] sc]. cbn [fst snd ideal] in SC. destruct ts as [|t ts].
  - intros H. apply bind_panic in H as [->|(? & _ & H)]; [|discriminate H].
    destruct (split_signature _ _); try discriminate SC. injection SC as SC. now destruct (_ <? _)%nat.
  - intros H. apply bind_panic in H as [H|(? & _ & H)]; [now apply guard_no_panic in H|discriminate H].
Qed.

(** ** Border crossings and loads *)

Lemma border_never b : exists e, unmarshal_day_border b = Err e.
Proof.
  unfold unmarshal_day_border. destruct (Nat.ltb_spec (length b) 57); cbn [negb guard bind]; [eexists; reflexivity|].
  destruct (card_gen_20 (sub b 0 20)) as (e & ->); [apply sub_length; lia|]. cbn [bind]. eauto.
Qed.

Lemma load_never b : exists e, unmarshal_day_load b = Err e.
Proof.
  unfold unmarshal_day_load. destruct (Nat.ltb_spec (length b) 60); cbn [negb guard bind]; [eexists; reflexivity|].
  destruct (unmarshal_time (sub b 0 4)) as [t|e|] eqn:E; cbn [bind]; [|eauto|].
  - destruct (card_gen_20 (sub b 5 20)) as (e & ->); [apply sub_length; lia|]. cbn [bind]. eauto.
  - unfold unmarshal_time in E. destruct (length (sub b 0 4) =? 4)%nat; cbn [guard bind] in E; [|discriminate E]. now destruct (_ =? 0).
Qed.

(** An array none of whose records can be read. *)
Lemma never_array {X} (un : bytes -> res X) ty size n p s :
  0 <= ty < 256 -> 0 <= size < 256 -> (0 < n <= max_token_size)%nat -> (forall b, exists e, un b = Err e) -> bytes_ok s ->
  (exists k r, s = [0; ty] ++ [0; size] ++ k ++ r /\ length k = 2%nat /\ (num k = 0 \/ (length r < n)%nat) /\
     parse_array un ty size n (p ++ s) (length p) = Ok ([], length (p ++ [0; ty] ++ [0; size] ++ k))) \/
  ((exists e, parse_array un ty size n (p ++ s) (length p) = Err e) /\
   forall k r, s = [0; ty] ++ [0; size] ++ k ++ r -> length k = 2%nat -> num k <> 0 /\ (n <= length r)%nat).
Proof.
  intros RT RS K NV B. pose proof (reads_scanned_array ty size un n RT RS K) as R.
  assert (NP : panics (parse_array un ty size n) (fun _ => False)).
  { apply panics_scanned_array; try assumption. intros b C. destruct (NV b) as (e & E). congruence. }
  destruct (parse_array un ty size n (p ++ s) (length p)) as [[xs o]|e|] eqn:E.
  - left. pose proof E as E'. apply (R p s xs o B) in E.
    destruct E as (a & r & -> & -> & k & bs & -> & [L C] & F1 & F2).
    destruct F2 as [|b x bs xs Eb _]; [|destruct (NV b) as (e & N); congruence].
    cbn [concat length] in *. rewrite app_nil_r in *. exists k, r. split; [rewrite <- !app_assoc; reflexivity|].
    split; [exact L|]. split; [lia|]. reflexivity.
  - right. split; [eauto|]. intros k r -> L.
    assert (G : ~ (num k = 0 \/ (length r < n)%nat)).
    { intros C. assert (EX : parse_array un ty size n (p ++ [0; ty] ++ [0; size] ++ k ++ r) (length p)
                        = Ok ([], length (p ++ [0; ty] ++ [0; size] ++ k))).
      { apply (R p _ [] _ B). exists ([0; ty] ++ [0; size] ++ k), r. split; [rewrite <- !app_assoc; reflexivity|].
        split; [reflexivity|]. exists k, []. cbn [concat length]. rewrite app_nil_r. split; [reflexivity|].
        split; [|split; constructor]. split; [exact L|]. rewrite !bytes_ok_app in B.
        assert (0 <= num k) by (apply num_nonneg; tauto). cbn [length]. lia. }
      congruence. }
    lia.
  - apply (NP p s B) in E. destruct E.
Qed.

Definition skipped (ty size : Z) (n : nat) (b after : bytes) : Prop :=
  b = [] \/ exists k, b = [0; ty; 0; size] ++ k /\ length k = 2%nat /\ (num k = 0 \/ (length after < n)%nat).

Definition nonempty {A} (l : list A) : bool := match l with [] => false | _ => true end.

Lemma k57 : (0 < 57 <= max_token_size)%nat. Proof. pose proof max_eq. lia. Qed.
Lemma k60 : (0 < 60 <= max_token_size)%nat. Proof. pose proof max_eq. lia. Qed.

Lemma border_array p s : bytes_ok s ->
  (exists k r, s = [0; 23] ++ [0; 59] ++ k ++ r /\ length k = 2%nat /\ (num k = 0 \/ (length r < 57)%nat) /\
     parse_border_array (p ++ s) (length p) = Ok ([], length (p ++ [0; 23] ++ [0; 59] ++ k))) \/
  ((exists e, parse_border_array (p ++ s) (length p) = Err e) /\
   forall k r, s = [0; 23] ++ [0; 59] ++ k ++ r -> length k = 2%nat -> num k <> 0 /\ (57 <= length r)%nat).
Proof. apply never_array; [lia..|exact k57|exact border_never]. Qed.

Lemma load_array p s : bytes_ok s ->
  (exists k r, s = [0; 24] ++ [0; 58] ++ k ++ r /\ length k = 2%nat /\ (num k = 0 \/ (length r < 60)%nat) /\
     parse_load_array (p ++ s) (length p) = Ok ([], length (p ++ [0; 24] ++ [0; 58] ++ k))) \/
  ((exists e, parse_load_array (p ++ s) (length p) = Err e) /\
   forall k r, s = [0; 24] ++ [0; 58] ++ k ++ r -> length k = 2%nat -> num k <> 0 /\ (60 <= length r)%nat).
Proof. apply never_array; [lia..|exact k60|exact load_never]. Qed.

(** The loads alone. *)
Definition loads_at (bs : list day_border) (v2 : bool) (d : bytes) (o : nat) : res (list day_border * bool * list day_load * nat) :=
  if (o + 5 <=? length d)%nat then
    match parse_load_array d o with
    | Ok (ls, o') => Ok (bs, v2, ls, o')
    | Err _ => Ok (bs, v2, [], o)
    | Panic => Panic
    end
  else Ok (bs, v2, [], o).

Lemma loads_some bs v2 p s : bytes_ok s -> exists l r, s = l ++ r /\ skipped 24 58 60 l r /\
  loads_at bs v2 (p ++ s) (length p) = Ok (bs, v2, [], length (p ++ l)).
Proof.
  intros B. unfold loads_at. destruct (_ <=? _)%nat.
  - destruct (load_array p s B) as [(k & r & -> & L & C & ->)|[(e & ->) _]].
    + exists ([0; 24] ++ [0; 58] ++ k), r. split; [rewrite <- !app_assoc; reflexivity|].
      split; [right; exists k; auto|reflexivity].
    + exists [], s. rewrite app_nil_r. repeat split. now left.
  - exists [], s. rewrite app_nil_r. repeat split. now left.
Qed.

Lemma loads_this bs v2 p l g r : bytes_ok (l ++ [0; 8] ++ g ++ r) -> skipped 24 58 60 l ([0; 8] ++ g ++ r) ->
  loads_at bs v2 (p ++ l ++ [0; 8] ++ g ++ r) (length p) = Ok (bs, v2, [], length (p ++ l)).
Proof.
  intros B K. unfold loads_at. destruct K as [->|(k & -> & L & C)].
  - rewrite app_nil_r. destruct (_ <=? _)%nat; [|reflexivity].
    destruct (load_array p _ B) as [(k & q & E & _)|[(e & ->) _]]; [discriminate E|reflexivity].
  - destruct (Nat.leb_spec (length p + 5) (length (p ++ ([0; 24; 0; 58] ++ k) ++ [0; 8] ++ g ++ r))) as [G|G];
      [|rewrite !app_length in G; cbn [length] in G; lia].
    destruct (load_array p _ B) as [(k2 & q & E & L2 & _ & ->)|[_ N]].
    + cbn [app] in E. injection E as E. assert (k2 = k).
      { destruct k as [|? [|? [|? ?]]]; try discriminate L. destruct k2 as [|? [|? [|? ?]]]; try discriminate L2.
        cbn [app] in E. injection E as -> -> _. reflexivity. }
      subst. reflexivity.
    + exfalso. destruct (N k ([0; 8] ++ g ++ r)) as [N1 N2]; [reflexivity|exact L|]. lia.
Qed.

Lemma version2_eq d o : parse_version2 d o =
  if (o + 10 <=? length d)%nat then
    match parse_border_array d o with
    | Ok (bs, o') => loads_at bs true d o'
    | Err _ => loads_at [] false d o
    | Panic => Panic
    end
  else Ok ([], false, [], o).
Proof. unfold parse_version2, loads_at. destruct (_ <=? _)%nat; [|reflexivity]. destruct (parse_border_array d o) as [[bs o']|e|]; reflexivity. Qed.

Lemma version2_some p s : bytes_ok s -> exists b l r, s = b ++ l ++ r /\ skipped 23 59 57 b (l ++ r) /\
  skipped 24 58 60 l r /\ parse_version2 (p ++ s) (length p) = Ok ([], nonempty b, [], length (p ++ b ++ l)).
Proof.
  intros B. rewrite version2_eq. destruct (_ <=? _)%nat.
  - destruct (border_array p s B) as [(k & r & -> & L & C & ->)|[(e & ->) _]].
    + assert (B2 : bytes_ok r) by (rewrite !bytes_ok_app in B; tauto).
      destruct (loads_some [] true (p ++ [0; 23] ++ [0; 59] ++ k) r B2) as (l & q & -> & K & E).
      exists ([0; 23] ++ [0; 59] ++ k), l, q. split; [rewrite <- !app_assoc; reflexivity|].
      split; [right; exists k; auto|]. split; [exact K|].
      rewrite <- !app_assoc in E. rewrite <- ?app_assoc. exact E.
    + destruct (loads_some [] false p s B) as (l & q & -> & K & E).
      exists [], l, q. split; [reflexivity|]. split; [now left|]. auto.
  - exists [], [], s. rewrite app_nil_r. repeat split; now left.
Qed.

Lemma version2_this p b l g r : bytes_ok (b ++ l ++ [0; 8] ++ g ++ r) ->
  skipped 23 59 57 b (l ++ [0; 8] ++ g ++ r) -> skipped 24 58 60 l ([0; 8] ++ g ++ r) -> (4 <= length g)%nat ->
  parse_version2 (p ++ b ++ l ++ [0; 8] ++ g ++ r) (length p) = Ok ([], nonempty b, [], length (p ++ b ++ l)).
Proof.
  intros B K1 K2 LG. rewrite version2_eq. destruct K1 as [->|(k & -> & L & C)].
  - cbn [nonempty]. change (@nil Z ++ l) with l. change ([] ++ l ++ [0; 8] ++ g ++ r) with (l ++ [0; 8] ++ g ++ r) in *.
    assert (E : forall k q, l ++ [0; 8] ++ g ++ r <> [0; 23] ++ [0; 59] ++ k ++ q).
    { intros k q E. destruct K2 as [->|(k2 & -> & _)]; discriminate E. }
    destruct (Nat.leb_spec (length p + 10) (length (p ++ l ++ [0; 8] ++ g ++ r))) as [G|G].
    + destruct (border_array p _ B) as [(k & q & E2 & _)|[(e & ->) _]]; [now apply E in E2|].
      apply loads_this; assumption.
    + rewrite !app_length in G. cbn [length] in G.
      destruct K2 as [->|(k2 & -> & L2 & _)]; [now rewrite app_nil_r|].
      rewrite app_length in G. cbn [length] in G. lia.
  - destruct (Nat.leb_spec (length p + 10) (length (p ++ ([0; 23; 0; 59] ++ k) ++ l ++ [0; 8] ++ g ++ r))) as [G|G];
      [|rewrite !app_length in G; cbn [length] in G; lia].
    destruct (border_array p _ B) as [(k2 & q & E & L2 & _ & ->)|[_ N]].
    + cbn [app] in E. injection E as E. assert (EE : k2 = k /\ q = l ++ [0; 8] ++ g ++ r).
      { destruct k as [|? [|? [|? ?]]]; try discriminate L. destruct k2 as [|? [|? [|? ?]]]; try discriminate L2.
        cbn [app] in E. injection E as -> -> <-. auto. }
      destruct EE as [-> ->]. rewrite bytes_ok_app in B.
      pose proof (loads_this [] true (p ++ [0; 23; 0; 59] ++ k) l g r (proj2 B) K2) as LT.
      rewrite <- !app_assoc in LT. rewrite <- ?app_assoc. exact LT.
    + exfalso. destruct (N k (l ++ [0; 8] ++ g ++ r)) as [N1 N2]; [reflexivity|exact L|]. lia.
Qed.

(** ** The end of a second-generation day *)

Definition tail_at (d : bytes) (o : nat) : res (list day_border * bool * list day_load * bytes * nat) :=
  let* (v, o) := parse_version2 d o in
  let* (sig, o) := parse_signature d o in
  Ok (v, sig, o).

Lemma reads_tail : reads tail_at (fun a x r => exists b l size count sig,
  a = b ++ l ++ [0; 8] ++ size ++ count ++ sig /\
  skipped 23 59 57 b (l ++ [0; 8] ++ size ++ count ++ sig ++ r) /\
  skipped 24 58 60 l ([0; 8] ++ size ++ count ++ sig ++ r) /\ length size = 2%nat /\ length count = 2%nat /\
  num size = Z.of_nat (length sig) /\ 1 <= Z.of_nat (length sig) <= 65530 /\ x = ([], nonempty b, [], sig)).
Proof.
  intros p s x o B. unfold tail_at. split.
  - destruct (version2_some p s B) as (b & l & r & -> & K1 & K2 & ->). cbn [bind]. intros H.
    replace (p ++ b ++ l ++ r) with ((p ++ b ++ l) ++ r) in H by (rewrite <- !app_assoc; reflexivity).
    apply bind_ok in H as ([sig o'] & E & H). apply Ok_inj in H. injection H as <- <-.
    apply reads_signature in E; [|rewrite !bytes_ok_app in B; tauto].
    destruct E as (a & q & -> & -> & z & c & -> & Lz & Lc & N & R).
    exists (b ++ l ++ [0; 8] ++ z ++ c ++ sig), q. split; [rewrite <- !app_assoc; reflexivity|].
    split; [rewrite <- !app_assoc; reflexivity|].
    exists b, l, z, c, sig. rewrite <- !app_assoc in K1, K2. auto 10.
  - intros (a & r & -> & -> & b & l & z & c & sig & -> & K1 & K2 & Lz & Lc & N & R & ->).
    replace ((b ++ l ++ [0; 8] ++ z ++ c ++ sig) ++ r) with (b ++ l ++ [0; 8] ++ (z ++ c ++ sig) ++ r) in *
      by (rewrite <- !app_assoc; reflexivity).
    rewrite version2_this; [|exact B|rewrite <- !app_assoc; assumption..|rewrite !app_length; lia].
    cbn [bind].
    replace (p ++ b ++ l ++ [0; 8] ++ (z ++ c ++ sig) ++ r) with ((p ++ b ++ l) ++ [0; 8] ++ (z ++ c ++ sig) ++ r)
      by (rewrite <- !app_assoc; reflexivity).
    assert (E : parse_signature ((p ++ b ++ l) ++ [0; 8] ++ (z ++ c ++ sig) ++ r) (length (p ++ b ++ l))
                = Ok (sig, length ((p ++ b ++ l) ++ [0; 8] ++ z ++ c ++ sig))).
    { apply reads_signature; [rewrite !bytes_ok_app in B; rewrite !bytes_ok_app; tauto|].
      exists ([0; 8] ++ z ++ c ++ sig), r. split; [rewrite <- !app_assoc; reflexivity|]. split; [reflexivity|].
      exists z, c. auto. }
    rewrite E. cbn [bind]. rewrite <- !app_assoc. reflexivity.
Qed.

Lemma panics_tail : panics tail_at (fun _ => False).
Proof.
  intros p s B. split; [|intros []]. unfold tail_at.
  destruct (version2_some p s B) as (b & l & r & -> & K1 & K2 & ->). cbn [bind]. intros H.
  replace (p ++ b ++ l ++ r) with ((p ++ b ++ l) ++ r) in H by (rewrite <- !app_assoc; reflexivity).
  apply bind_panic in H as [H|([sig o'] & _ & H)]; [|discriminate H].
  apply panics_signature in H; [exact H|rewrite !bytes_ok_app in B; tauto].
Qed.

(** ** The whole second-generation day *)

Definition day2_body (cm : Z -> Z -> Z) (d : bytes) (o : nat) : res (vu_day * nat) :=
  let* (ts, o) := array_at 1 4 (fun m d o => parse_records parse_date d m o) d o in
  let* (os, o) := array_at 2 3 (fun m d o => parse_records (item unmarshal_odometer 3) d m o) d o in
  let* (iw, o) := parse_iw_array cm d o in
  let* (cs, o) := parse_change_array d o in
  let* (ps, o) := parse_place_array d o in
  let* (gs, o) := parse_gnss_array d o in
  let* (ks, o) := parse_condition_array d o in
  let* (v, o) := tail_at d o in
  Ok (mkDay GENERATION_2 (if snd (fst (fst v)) then VERSION_2 else VERSION_UNSPECIFIED)
        (hd None ts) (hd 0 os) iw cs ps gs ks (fst (fst (fst v))) (snd (fst v)) None (Some (snd v)), o).

Lemma day2_eq cm d start :
  unmarshal_day_gen2 cm d start = let* (x, o) := day2_body cm d start in Ok (x, (o - start)%nat).
Proof.
  unfold unmarshal_day_gen2, day2_body.
  change (parse_date_array d start) with (array_at 1 4 (fun m d o => parse_records parse_date d m o) d start).
  rewrite bind_assoc. apply bind_ext. intros [ts o].
  change (parse_odometer_array d o) with (array_at 2 3 (fun m d o => parse_records (item unmarshal_odometer 3) d m o) d o).
  unfold tail_at.
  repeat (rewrite ?bind_assoc; apply bind_ext; intros;
    repeat match goal with p : (_ * nat)%type |- _ => destruct p
                      | p : (list day_border * bool * list day_load)%type |- _ => destruct p as [[? ?] ?] end; cbn [bind]).
  reflexivity.
Qed.
