(** Lists of fixed-size records. *)

From Verif Require Import Base.

(** The full [n]-byte records of a file, as in
    [for i := 0; i < len(data)/n; i++ { data[i*n : i*n+n] }]. *)
Definition chunks (n : nat) (l : bytes) : list bytes :=
  map (fun i => sub l (i * n) n) (seq 0 (length l / n)).

(** Apply a decoder to every record, stopping at the first error. *)
Fixpoint map_res {A B} (f : A -> res B) (l : list A) : res (list B) :=
  match l with
  | [] => Ok []
  | a :: t => let* b := f a in let* bs := map_res f t in Ok (b :: bs)
  end.

(** Append the encodings of all records, stopping at the first error. *)
Fixpoint concat_res {A} (f : A -> res bytes) (l : list A) : res bytes :=
  match l with
  | [] => Ok []
  | a :: t => let* b := f a in let* bs := concat_res f t in Ok (b ++ bs)
  end.

(** Paint records of [size] bytes onto a canvas from offset [off] on; a record
    of another size is an error. *)
Fixpoint paint_records {A} (f : A -> res bytes) (size : nat) (c : bytes) (off : nat) (l : list A)
  : res bytes :=
  match l with
  | [] => Ok c
  | a :: t =>
      let* b := f a in
      let* _ := guard (length b =? size)%nat in
      paint_records f size (copy_into c off (off + size) b) (off + size) t
  end.

(** ** Lemmas *)

Lemma sub_skipn l k i n : sub (skipn k l) i n = sub l (k + i) n.
Proof. unfold sub. now rewrite skipn_skipn. Qed.

Lemma chunks_nil n l : (length l < n)%nat -> chunks n l = [].
Proof. intros. unfold chunks. rewrite Nat.div_small by auto. reflexivity. Qed.

Lemma chunks_cons n l :
  (0 < n)%nat -> (n <= length l)%nat -> chunks n l = firstn n l :: chunks n (skipn n l).
Proof.
  intros N L. unfold chunks.
  assert (E : (length l / n = S (length (skipn n l) / n))%nat).
  { rewrite skipn_length. replace (length l) with (length l - n + 1 * n)%nat at 1 by lia.
    rewrite Nat.div_add by lia. lia. }
  rewrite E. cbn [seq map]. f_equal.
  rewrite <- seq_shift, map_map. apply map_ext. intros i.
  rewrite sub_skipn. reflexivity.
Qed.

Lemma chunks_count n l : length (chunks n l) = (length l / n)%nat.
Proof. unfold chunks. now rewrite map_length, seq_length. Qed.

Lemma chunks_ind (n : nat) (P : bytes -> list bytes -> Prop) :
  (0 < n)%nat ->
  (forall l, (length l < n)%nat -> P l []) ->
  (forall l, (n <= length l)%nat -> P (skipn n l) (chunks n (skipn n l)) ->
             P l (firstn n l :: chunks n (skipn n l))) ->
  forall l, P l (chunks n l).
Proof.
  intros N B S l. remember (length l) as k eqn:K. revert l K.
  induction k as [k IH] using lt_wf_ind. intros l ->.
  destruct (Nat.lt_ge_cases (length l) n) as [H|H].
  - rewrite chunks_nil; auto.
  - rewrite chunks_cons by auto. apply S; auto. eapply IH; [|reflexivity].
    rewrite skipn_length. lia.
Qed.

Lemma chunks_each n l : (0 < n)%nat -> Forall (fun c => length c = n) (chunks n l).
Proof.
  intros N. apply (chunks_ind n (fun _ cs => Forall (fun c => length c = n) cs)); auto.
  intros l' L IH. constructor; auto. rewrite firstn_length. lia.
Qed.

Lemma chunks_ok n l : (0 < n)%nat -> bytes_ok l -> Forall bytes_ok (chunks n l).
Proof.
  intros N H. unfold chunks. apply Forall_forall. intros c I.
  apply in_map_iff in I as (i & <- & _). apply bytes_ok_sub; auto.
Qed.

Lemma concat_chunks n l : (0 < n)%nat -> concat (chunks n l) = firstn (length l / n * n) l.
Proof.
  intros N. apply (chunks_ind n (fun l cs => concat cs = firstn (length l / n * n) l)); auto.
  - intros l' L. rewrite Nat.div_small by auto. reflexivity.
  - intros l' L IH. cbn [concat]. rewrite IH.
    assert (E : (length l' / n = S (length (skipn n l') / n))%nat).
    { rewrite skipn_length. replace (length l') with (length l' - n + 1 * n)%nat at 1 by lia.
      rewrite Nat.div_add by lia. lia. }
    rewrite E. cbn [Nat.mul].
    set (k := (length (skipn n l') / n * n)%nat). clearbody k.
    rewrite <- (firstn_skipn n l') at 3.
    rewrite firstn_app, firstn_firstn, Nat.min_r by lia.
    rewrite firstn_length, Nat.min_l by lia. do 2 f_equal. lia.
Qed.

Lemma concat_chunks_exact n l :
  (0 < n)%nat -> (length l mod n = 0)%nat -> concat (chunks n l) = l.
Proof.
  intros N M. rewrite concat_chunks by auto. rewrite firstn_all2; auto.
  pose proof (Nat.div_mod (length l) n). lia.
Qed.

Lemma chunks_concat n cs :
  (0 < n)%nat -> Forall (fun c => length c = n) cs -> chunks n (concat cs) = cs.
Proof.
  intros N. induction 1 as [|c cs Hc Hcs IH]; cbn [concat].
  - apply chunks_nil. simpl. lia.
  - rewrite chunks_cons by (rewrite ?app_length; lia).
    rewrite firstn_app, skipn_app, Hc, Nat.sub_diag, firstn_O, app_nil_r.
    rewrite firstn_all2, skipn_all2 by lia. simpl. now rewrite IH.
Qed.

Lemma concat_length_uniform n (cs : list bytes) :
  Forall (fun c => length c = n) cs -> length (concat cs) = (length cs * n)%nat.
Proof. induction 1; simpl; auto. rewrite app_length. lia. Qed.

Lemma map_res_ok {A B} (f : A -> res B) l bs :
  map_res f l = Ok bs <-> Forall2 (fun a b => f a = Ok b) l bs.
Proof.
  revert bs; induction l as [|a l IH]; intros bs; cbn [map_res].
  - split; [intros E; apply Ok_inj in E; subst; constructor|inversion 1; auto].
  - split.
    + intros E. apply bind_ok in E as (b & E1 & E). apply bind_ok in E as (bs' & E2 & E).
      apply Ok_inj in E; subst. constructor; auto. now apply IH.
    + inversion 1; subst. rewrite H2. cbn [bind]. rewrite (proj2 (IH _) H4). reflexivity.
Qed.

Lemma map_res_no_panic {A B} (f : A -> res B) l :
  (forall a, In a l -> f a <> Panic) -> map_res f l <> Panic.
Proof.
  induction l as [|a l IH]; intros H; cbn [map_res]; [discriminate|].
  intros E. apply bind_panic in E as [E|(b & _ & E)].
  - now apply (H a (or_introl eq_refl)).
  - apply bind_panic in E as [E|(bs & _ & E)]; [|discriminate].
    apply IH; auto. intros x I. apply H. now right.
Qed.

Lemma concat_res_ok {A} (f : A -> res bytes) l r :
  concat_res f l = Ok r <->
  exists bs, Forall2 (fun a b => f a = Ok b) l bs /\ r = concat bs.
Proof.
  revert r; induction l as [|a l IH]; intros r; cbn [concat_res].
  - split; [intros E; apply Ok_inj in E; subst; exists []; split; constructor|].
    intros (bs & F & ->). inversion F; auto.
  - split.
    + intros E. apply bind_ok in E as (b & E1 & E). apply bind_ok in E as (bs' & E2 & E).
      apply Ok_inj in E; subst. apply IH in E2 as (bs & F & ->).
      exists (b :: bs). split; [constructor; auto|reflexivity].
    + intros (bs & F & ->). inversion F; subst. rewrite H1. cbn [bind].
      rewrite (proj2 (IH (concat l'))) by eauto. reflexivity.
Qed.

Lemma concat_res_no_panic {A} (f : A -> res bytes) l :
  (forall a, In a l -> f a <> Panic) -> concat_res f l <> Panic.
Proof.
  induction l as [|a l IH]; intros H; cbn [concat_res]; [discriminate|].
  intros E. apply bind_panic in E as [E|(b & _ & E)].
  - now apply (H a (or_introl eq_refl)).
  - apply bind_panic in E as [E|(bs & _ & E)]; [|discriminate].
    apply IH; auto. intros x I. apply H. now right.
Qed.

(** Painting records over the part of the canvas they occupy. *)
Lemma paint_records_ok {A} (f : A -> res bytes) size c off l r :
  (off + size * length l <= length c)%nat ->
  (paint_records f size c off l = Ok r <->
   exists bs, Forall2 (fun a b => f a = Ok b) l bs /\ Forall (fun b => length b = size) bs /\
     r = firstn off c ++ concat bs ++ skipn (off + size * length l) c).
Proof.
  revert c off r; induction l as [|a l IH]; intros c off r L; cbn [paint_records length] in *.
  - rewrite Nat.mul_0_r, Nat.add_0_r. split.
    + intros E; apply Ok_inj in E; subst. exists []. repeat split; try constructor.
      cbn. now rewrite firstn_skipn.
    + intros (bs & F & _ & ->). inversion F; subst. cbn. now rewrite firstn_skipn.
  - assert (P : forall b, length b = size ->
       firstn (off + size) (copy_into c off (off + size) b) = firstn off c ++ b /\
       skipn (off + size + size * length l) (copy_into c off (off + size) b) =
       skipn (off + size * S (length l)) c).
    { intros b Lb. rewrite copy_into_eq by lia.
      assert (Hf : length (firstn off c) = off) by (rewrite firstn_length; lia).
      rewrite app_assoc. split.
      - rewrite firstn_app. rewrite firstn_all2 by (rewrite app_length; lia).
        rewrite app_length, Hf, Lb, Nat.sub_diag, firstn_O, app_nil_r. reflexivity.
      - rewrite skipn_app, skipn_all2 by (rewrite app_length; lia).
        rewrite app_length, Hf, Lb, skipn_skipn. cbn. f_equal. lia. }
    split.
    + intros E. apply bind_ok in E as (b & E1 & E). apply bind_ok in E as (u & G & E).
      apply guard_ok in G. apply Nat.eqb_eq in G.
      apply IH in E as (bs & F & S & ->).
      2: { rewrite copy_into_length by lia. lia. }
      exists (b :: bs). split; [constructor; auto|split; [constructor; auto|]].
      destruct (P b G) as [-> ->]. cbn. now rewrite !app_assoc.
    + intros (bs & F & S & ->). inversion F as [|? b ? bs' F1 F2]; subst.
      inversion S as [|? ? S1 S2]; subst. rewrite F1. cbn [bind].
      rewrite Nat.eqb_refl. cbn [guard bind].
      apply IH. { rewrite copy_into_length by lia. lia. }
      exists bs'. split; auto. split; auto.
      destruct (P b eq_refl) as [-> ->]. cbn. now rewrite !app_assoc.
Qed.

Lemma paint_records_no_panic {A} (f : A -> res bytes) size c off l :
  (forall a, In a l -> f a <> Panic) -> paint_records f size c off l <> Panic.
Proof.
  revert c off; induction l as [|a l IH]; intros c off H; cbn [paint_records]; [discriminate|].
  intros E. apply bind_panic in E as [E|(b & _ & E)].
  - now apply (H a (or_introl eq_refl)).
  - apply bind_panic in E as [E|(u & _ & E)]; [now apply guard_no_panic in E|].
    revert E. apply IH. intros x I. apply H. now right.
Qed.

(** Decode all records, encode them again. *)
Lemma records_round_trip {A} (un : bytes -> res A) (ap : A -> res bytes) (good : bytes -> Prop) cs rs :
  (forall c r, In c cs -> good c -> un c = Ok r -> ap r = Ok c) ->
  map_res un cs = Ok rs -> Forall good cs -> Forall2 (fun a b => ap a = Ok b) rs cs.
Proof.
  intros RT U G. apply map_res_ok in U. revert G RT.
  induction U as [|c r cs rs E U IH]; intros G RT; constructor.
  - inversion G; subst. apply RT; auto. now left.
  - inversion G; subst. apply IH; auto. intros; apply RT; auto. now right.
Qed.
