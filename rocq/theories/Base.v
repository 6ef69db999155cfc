(** Bytes, results, checked slices and big-endian numbers.

    Conventions shared by the whole model (see DESIGN.md):
    - a byte is a [Z]; [bytes_ok] says that all elements lie in 0..255;
    - a Go call is a [res]: a value, an error, or a run-time panic;
    - Go's [append(dst, x...)] is modelled by the list of appended bytes. *)

From Coq Require Export ZArith List Bool Lia.
From Coq Require Export ZifyBool ZifyNat.
Export ListNotations.
Open Scope Z_scope.
Ltac Zify.zify_post_hook ::= Z.div_mod_to_equations.

Notation bytes := (list Z).

Definition byte_ok (b : Z) : Prop := 0 <= b < 256.
Definition bytes_ok (l : bytes) : Prop := Forall byte_ok l.

(** Error classes kept apart by the callers: [io.ErrUnexpectedEOF],
    [bufio.ErrTooLong], anything else.  Messages are not modelled. *)
Inductive err := EEOF | ETooLong | EOther.

Inductive res (A : Type) : Type :=
| Ok (a : A)
| Err (e : err)
| Panic.
Arguments Ok {A} a.
Arguments Err {A} e.
Arguments Panic {A}.

Definition bind {A B} (x : res A) (f : A -> res B) : res B :=
  match x with
  | Ok a => f a
  | Err e => Err e
  | Panic => Panic
  end.

Notation "'let*' x ':=' c 'in' k" :=
  (bind c (fun x => k)) (at level 200, x pattern, c at level 100, k at level 200,
   right associativity).

Definition fail {A} : res A := Err EOther.

(** [if cond { return error }] *)
Definition guard (b : bool) : res unit := if b then Ok tt else fail.

Definition is_ok {A} (r : res A) : bool :=
  match r with Ok _ => true | _ => false end.

(** ** Slices *)

(** [n] bytes starting at [i] (shorter if the list is shorter). *)
Definition sub (l : bytes) (i n : nat) : bytes := firstn n (skipn i l).

(** Go's [l[i:j]] for a slice whose capacity equals its length. *)
Definition slice (l : bytes) (i j : nat) : res bytes :=
  if (i <=? j)%nat && (j <=? length l)%nat then Ok (sub l i (j - i)) else Panic.

(** Go's [l[i:]]. *)
Definition slice_from (l : bytes) (i : nat) : res bytes :=
  if (i <=? length l)%nat then Ok (skipn i l) else Panic.

(** Go's [l[i]]. *)
Definition index (l : bytes) (i : nat) : res Z :=
  match nth_error l i with Some b => Ok b | None => Panic end.

Definition zeros (n : nat) : bytes := repeat 0 n.

(** Go's [copy(canvas[i:j], src)]; the callers' canvases always have at least
    [j] bytes. *)
Definition copy_into (canvas : bytes) (i j : nat) (src : bytes) : bytes :=
  let n := Nat.min (j - i) (length src) in
  firstn i canvas ++ firstn n src ++ skipn (i + n) canvas.

(** Go's [canvas[i] = b]. *)
Definition set_byte (canvas : bytes) (i : nat) (b : Z) : bytes :=
  copy_into canvas i (i + 1) [b].

(** [make([]byte, n)] followed by [copy(result, src)]. *)
Definition pad_copy (n : nat) (src : bytes) : bytes := copy_into (zeros n) 0 n src.

(** ** Big-endian numbers (encoding/binary) *)

Fixpoint be_acc (a : Z) (l : bytes) : Z :=
  match l with
  | [] => a
  | b :: t => be_acc (a * 256 + b) t
  end.

(** [binary.BigEndian.Uint16/Uint32] of exactly those bytes. *)
Definition be (l : bytes) : Z := be_acc 0 l.

(** [binary.BigEndian.AppendUint16/32]: the low [n] bytes of [v]. *)
Fixpoint to_be (n : nat) (v : Z) : bytes :=
  match n with
  | O => []
  | S m => to_be m (v / 256) ++ [v mod 256]
  end.

(** Go integer conversions. *)
Definition u8 (v : Z) : Z := v mod 256.
Definition u16 (v : Z) : Z := v mod 65536.
Definition u32 (v : Z) : Z := v mod 4294967296.
Definition s32 (v : Z) : Z :=
  let w := v mod 4294967296 in if w <? 2147483648 then w else w - 4294967296.

(** ** Basic lemmas *)

Lemma skipn_skipn {A} (i j : nat) (l : list A) : skipn i (skipn j l) = skipn (j + i) l.
Proof.
  revert l; induction j as [|j IH]; intros l; [reflexivity|].
  destruct l; simpl; [apply skipn_nil|]. apply IH.
Qed.

Lemma bytes_ok_nil : bytes_ok [].
Proof. constructor. Qed.

Lemma bytes_ok_cons b l : bytes_ok (b :: l) <-> byte_ok b /\ bytes_ok l.
Proof. unfold bytes_ok; rewrite Forall_cons_iff; tauto. Qed.

Lemma bytes_ok_app l m : bytes_ok (l ++ m) <-> bytes_ok l /\ bytes_ok m.
Proof. unfold bytes_ok; apply Forall_app. Qed.

Lemma bytes_ok_firstn n l : bytes_ok l -> bytes_ok (firstn n l).
Proof.
  revert l; induction n as [|n IH]; intros [|b l] H; simpl; try constructor.
  - now inversion H.
  - apply IH; now inversion H.
Qed.

Lemma bytes_ok_skipn n l : bytes_ok l -> bytes_ok (skipn n l).
Proof.
  revert l; induction n as [|n IH]; intros [|b l] H; simpl; auto.
  apply IH; now inversion H.
Qed.

Lemma bytes_ok_sub l i n : bytes_ok l -> bytes_ok (sub l i n).
Proof. intros; apply bytes_ok_firstn, bytes_ok_skipn; auto. Qed.

Lemma bytes_ok_repeat b n : byte_ok b -> bytes_ok (repeat b n).
Proof. intros; induction n; constructor; auto. Qed.

Lemma bytes_ok_zeros n : bytes_ok (zeros n).
Proof. apply bytes_ok_repeat; unfold byte_ok; lia. Qed.

Lemma bytes_ok_nth l i b : bytes_ok l -> nth_error l i = Some b -> byte_ok b.
Proof.
  intros H E. apply nth_error_In in E.
  unfold bytes_ok in H; rewrite Forall_forall in H; auto.
Qed.

Lemma zeros_length n : length (zeros n) = n.
Proof. apply repeat_length. Qed.

Lemma sub_length l i n : (i + n <= length l)%nat -> length (sub l i n) = n.
Proof. intros; unfold sub; rewrite firstn_length, skipn_length; lia. Qed.

Lemma sub_length_le l i n : (length (sub l i n) <= n)%nat.
Proof. unfold sub; rewrite firstn_length; lia. Qed.

Lemma slice_ok l i j :
  (i <= j)%nat -> (j <= length l)%nat -> slice l i j = Ok (sub l i (j - i)).
Proof.
  intros; unfold slice.
  destruct (Nat.leb_spec i j); [|lia]. destruct (Nat.leb_spec j (length l)); [|lia].
  reflexivity.
Qed.

Lemma slice_from_ok l i : (i <= length l)%nat -> slice_from l i = Ok (skipn i l).
Proof. intros; unfold slice_from. destruct (Nat.leb_spec i (length l)); [reflexivity|lia]. Qed.

Lemma index_ok l i : (i < length l)%nat -> index l i = Ok (nth i l 0).
Proof.
  intros H; unfold index.
  rewrite (nth_error_nth' l 0 H). reflexivity.
Qed.

Lemma nth_byte_ok l i : bytes_ok l -> (i < length l)%nat -> byte_ok (nth i l 0).
Proof.
  intros H L. unfold bytes_ok in H; rewrite Forall_forall in H.
  apply H, nth_In; auto.
Qed.

Lemma sub_app_l l m n : length l = n -> sub (l ++ m) 0 n = l.
Proof.
  intros; unfold sub; simpl. rewrite firstn_app, H, Nat.sub_diag, firstn_O, app_nil_r.
  subst; apply firstn_all.
Qed.

Lemma sub_app_r l m i n : length l = i -> sub (l ++ m) i n = firstn n m.
Proof.
  intros; unfold sub. rewrite skipn_app, H, Nat.sub_diag.
  subst i; rewrite skipn_all; reflexivity.
Qed.

Lemma sub_all l : sub l 0 (length l) = l.
Proof. unfold sub; simpl; apply firstn_all. Qed.

Lemma sub_1 l i : (i < length l)%nat -> sub l i 1 = [nth i l 0].
Proof.
  revert i; induction l as [|b l IH]; intros i H; simpl in H; [lia|].
  destruct i as [|i]; [reflexivity|].
  change (sub (b :: l) (S i) 1) with (sub l i 1). rewrite IH by lia. reflexivity.
Qed.

Lemma skipn_sub l i n :
  (i + n <= length l)%nat -> skipn i l = sub l i n ++ skipn (i + n) l.
Proof.
  intros. unfold sub.
  rewrite <- (firstn_skipn n (skipn i l)) at 1. f_equal.
  rewrite skipn_skipn. f_equal; lia.
Qed.

Lemma sub_sub l i n j m : (j + m <= n)%nat -> sub (sub l i n) j m = sub l (i + j) m.
Proof.
  intros. unfold sub.
  rewrite skipn_firstn_comm, firstn_firstn, skipn_skipn, Nat.min_l by lia.
  do 2 f_equal; lia.
Qed.

Lemma sub_join l i n m k :
  k = (i + n)%nat -> sub l i n ++ sub l k m = sub l i (n + m).
Proof.
  intros ->. unfold sub. rewrite <- (skipn_skipn n i l).
  set (r := skipn i l). clearbody r. revert r.
  induction n as [|n IH]; intros [|b r]; simpl; auto.
  - now rewrite firstn_nil.
  - now rewrite IH.
Qed.

Lemma nth_sub l i n j d : (j < n)%nat -> nth j (sub l i n) d = nth (i + j) l d.
Proof.
  intros H. unfold sub.
  revert l j n H. induction i as [|i IH]; intros l j n H; simpl.
  - revert j n H; induction l as [|b l IHl]; intros j n H.
    + rewrite firstn_nil; destruct j; reflexivity.
    + destruct n; [lia|]; destruct j; simpl; [reflexivity|]. apply IHl; lia.
  - destruct l as [|b l].
    + rewrite firstn_nil; destruct j; reflexivity.
    + apply IH; auto.
Qed.

(** *** Painting *)

Lemma copy_into_length c i j s :
  (i <= j)%nat -> (j <= length c)%nat -> length (copy_into c i j s) = length c.
Proof.
  intros; unfold copy_into. rewrite !app_length, !firstn_length, skipn_length. lia.
Qed.

Lemma copy_into_eq c i j s :
  (i <= j)%nat -> (j <= length c)%nat -> length s = (j - i)%nat ->
  copy_into c i j s = firstn i c ++ s ++ skipn j c.
Proof.
  intros; unfold copy_into. rewrite H1, Nat.min_id.
  rewrite <- H1 at 1. rewrite firstn_all. do 3 f_equal. lia.
Qed.

Lemma copy_into_same c i j :
  (i <= j)%nat -> (j <= length c)%nat -> copy_into c i j (sub c i (j - i)) = c.
Proof.
  intros. rewrite copy_into_eq; auto; [|apply sub_length; lia].
  rewrite <- (firstn_skipn i c) at 4. f_equal.
  rewrite (skipn_sub c i (j - i)) by lia. do 2 f_equal; lia.
Qed.

Lemma set_byte_same c i : (i < length c)%nat -> set_byte c i (nth i c 0) = c.
Proof.
  intros; unfold set_byte. rewrite <- sub_1 by auto.
  replace 1%nat with ((i + 1) - i)%nat at 2 by lia. apply copy_into_same; lia.
Qed.

Lemma set_byte_length c i b : (i < length c)%nat -> length (set_byte c i b) = length c.
Proof. intros; unfold set_byte; apply copy_into_length; lia. Qed.

Lemma copy_into_ok c i j s :
  bytes_ok c -> bytes_ok s -> bytes_ok (copy_into c i j s).
Proof.
  intros; unfold copy_into. rewrite !bytes_ok_app.
  auto using bytes_ok_firstn, bytes_ok_skipn.
Qed.

Lemma nth_copy_into_out c i j s k d :
  (i <= j)%nat -> (j <= length c)%nat -> (k < i \/ j <= k)%nat ->
  nth k (copy_into c i j s) d = nth k c d.
Proof.
  intros Hij Hj Hk. unfold copy_into. set (n := Nat.min (j - i) (length s)).
  assert (Hn : length (firstn n s) = n) by (rewrite firstn_length; lia).
  assert (Hi : length (firstn i c) = i) by (rewrite firstn_length; lia).
  destruct Hk.
  - rewrite app_nth1 by lia.
    rewrite <- (firstn_skipn i c) at 2. rewrite app_nth1 by lia. reflexivity.
  - rewrite app_nth2, Hi by lia. rewrite app_nth2, Hn by lia.
    rewrite <- (firstn_skipn (i + n) c) at 2.
    rewrite app_nth2; rewrite firstn_length, Nat.min_l by lia; [f_equal; lia|lia].
Qed.

Lemma nth_copy_into_in c i j s k d :
  (i <= j)%nat -> (j <= length c)%nat -> length s = (j - i)%nat -> (i <= k < j)%nat ->
  nth k (copy_into c i j s) d = nth (k - i) s d.
Proof.
  intros Hij Hj Hs Hk. rewrite copy_into_eq by auto.
  assert (Hi : length (firstn i c) = i) by (rewrite firstn_length; lia).
  rewrite app_nth2, Hi by lia. rewrite app_nth1 by lia. reflexivity.
Qed.

Lemma pad_copy_exact n s : length s = n -> pad_copy n s = s.
Proof.
  intros; unfold pad_copy. rewrite copy_into_eq; rewrite ?zeros_length; try lia.
  simpl. rewrite skipn_all2 by (rewrite zeros_length; lia). apply app_nil_r.
Qed.

(** *** Big-endian numbers *)

Lemma be_acc_app a l m : be_acc a (l ++ m) = be_acc (be_acc a l) m.
Proof. revert a; induction l as [|b l IH]; intros a; simpl; auto. Qed.

Lemma be_acc_shift a l : be_acc a l = a * 256 ^ Z.of_nat (length l) + be l.
Proof.
  unfold be. revert a; induction l as [|b l IH]; intros a; cbn [be_acc length].
  - simpl; lia.
  - rewrite IH, (IH (0 * 256 + b)).
    rewrite Nat2Z.inj_succ, Z.pow_succ_r by lia. ring.
Qed.

Lemma be_app l m : be (l ++ m) = be l * 256 ^ Z.of_nat (length m) + be m.
Proof. unfold be at 1. rewrite be_acc_app, be_acc_shift. reflexivity. Qed.

Lemma be_range l : bytes_ok l -> 0 <= be l < 256 ^ Z.of_nat (length l).
Proof.
  induction l as [|b l IH]; intros H.
  - cbn; lia.
  - apply bytes_ok_cons in H as [Hb Hl]. specialize (IH Hl).
    change (b :: l) with ([b] ++ l). rewrite be_app.
    change (be [b]) with (0 * 256 + b). unfold byte_ok in Hb.
    rewrite app_length. cbn [length]. rewrite Nat2Z.inj_add.
    change (Z.of_nat 1) with 1. rewrite Z.pow_add_r by lia.
    set (p := 256 ^ Z.of_nat (length l)) in *. nia.
Qed.

Lemma to_be_length n v : length (to_be n v) = n.
Proof.
  revert v; induction n as [|n IH]; intros v; simpl; auto.
  rewrite app_length, IH; simpl; lia.
Qed.

Lemma to_be_ok n v : bytes_ok (to_be n v).
Proof.
  revert v; induction n as [|n IH]; intros v; simpl; [constructor|].
  apply bytes_ok_app; split; auto. constructor; [|constructor]. unfold byte_ok; lia.
Qed.

Lemma be_to_be n v : be (to_be n v) = v mod 256 ^ Z.of_nat n.
Proof.
  revert v; induction n as [|n IH]; intros v; cbn [to_be].
  - cbn. symmetry; apply Z.mod_1_r.
  - rewrite be_app, IH. cbn [length]. change (256 ^ Z.of_nat 1) with 256.
    change (be [v mod 256]) with (0 * 256 + v mod 256).
    rewrite Nat2Z.inj_succ, Z.pow_succ_r by lia.
    assert (0 < 256 ^ Z.of_nat n) by (apply Z.pow_pos_nonneg; lia).
    rewrite Z.rem_mul_r by lia. lia.
Qed.

Lemma to_be_be_acc n l a :
  bytes_ok l -> length l = n -> to_be n (be_acc a l) = l.
Proof.
  revert l a; induction n as [|n IH]; intros l a H L.
  - destruct l; [reflexivity|discriminate].
  - destruct (exists_last (l := l)) as (l' & b & ->); [now destruct l|].
    rewrite app_length in L; simpl in L.
    apply bytes_ok_app in H as [H1 H2]. apply bytes_ok_cons in H2 as [Hb _].
    unfold byte_ok in Hb. rewrite be_acc_app. cbn [be_acc to_be].
    rewrite Z.div_add_l by lia. rewrite Z.div_small, Z.add_0_r by lia.
    rewrite IH by (auto; lia). f_equal. f_equal.
    rewrite Z.add_comm, Z.mod_add by lia. apply Z.mod_small; lia.
Qed.

Lemma to_be_be n l : bytes_ok l -> length l = n -> to_be n (be l) = l.
Proof. apply to_be_be_acc. Qed.

Lemma to_be_mod n v : to_be n (v mod 256 ^ Z.of_nat n) = to_be n v.
Proof.
  rewrite <- be_to_be. apply to_be_be; auto using to_be_ok, to_be_length.
Qed.

Arguments to_be : simpl never.

Lemma to_be_u32 n v : (n <= 4)%nat -> to_be n (u32 v) = to_be n v.
Proof.
  intros H. rewrite <- (to_be_mod n v), <- (to_be_mod n (u32 v)). f_equal.
  unfold u32. change 4294967296 with (256 ^ 4).
  assert (E : 256 ^ 4 = 256 ^ Z.of_nat n * 256 ^ (4 - Z.of_nat n)).
  { rewrite <- Z.pow_add_r by lia. f_equal; lia. }
  assert (0 < 256 ^ Z.of_nat n) by (apply Z.pow_pos_nonneg; lia).
  assert (0 < 256 ^ (4 - Z.of_nat n)) by (apply Z.pow_pos_nonneg; lia).
  rewrite E, Z.rem_mul_r by lia.
  rewrite Z.mul_comm, Z.add_mod, Z.mod_mul, Z.add_0_r, !Z.mod_mod by lia. reflexivity.
Qed.

(** *** Results *)

Lemma bind_ok {A B} (x : res A) (f : A -> res B) b :
  bind x f = Ok b -> exists a, x = Ok a /\ f a = Ok b.
Proof. destruct x; simpl; try discriminate; eauto. Qed.

Lemma bind_panic {A B} (x : res A) (f : A -> res B) :
  bind x f = Panic <-> x = Panic \/ exists a, x = Ok a /\ f a = Panic.
Proof.
  destruct x; simpl; split; try discriminate; eauto.
  - intros [H|(a' & H & E)]; [discriminate|]. congruence.
  - intros [H|(a' & H & E)]; discriminate.
Qed.

Lemma guard_ok b u : guard b = Ok u -> b = true.
Proof. destruct b; [auto|discriminate]. Qed.

Lemma guard_no_panic b : guard b <> Panic.
Proof. destruct b; discriminate. Qed.

(** Break a hypothesis [(let* x := c in k) = Ok v] into its steps. *)
Ltac inv_bind H :=
  let a := fresh "a" in let E := fresh "E" in
  apply bind_ok in H as (a & E & H).

Lemma Ok_inj {A} (a b : A) : Ok a = Ok b -> a = b.
Proof. congruence. Qed.

Ltac inv_ok :=
  repeat match goal with
  | H : Ok ?a = Ok ?b |- _ => apply Ok_inj in H; try subst
  | H : guard ?b = Ok ?u |- _ => apply guard_ok in H
  | H : fail = Ok _ |- _ => discriminate H
  | H : Err _ = Ok _ |- _ => discriminate H
  | H : Panic = Ok _ |- _ => discriminate H
  end.

(** ** Finite sweeps: a boolean check over [0..n-1] lifted to all [Z] there. *)

Definition zrange (n : nat) : list Z := map Z.of_nat (seq 0 n).

Lemma zrange_in n z : 0 <= z < Z.of_nat n -> In z (zrange n).
Proof.
  intros H. unfold zrange. apply in_map_iff. exists (Z.to_nat z).
  split; [lia|]. apply in_seq. lia.
Qed.

Lemma sweep (f : Z -> bool) n :
  forallb f (zrange n) = true -> forall z, 0 <= z < Z.of_nat n -> f z = true.
Proof. intros H z Hz. rewrite forallb_forall in H. apply H, zrange_in, Hz. Qed.

(** ** Reassembling a record from its fields *)

Lemma sub_join_assoc l i n m k r :
  k = (i + n)%nat -> sub l i n ++ (sub l k m ++ r) = sub l i (n + m) ++ r.
Proof. intros E. rewrite app_assoc, sub_join by auto. reflexivity. Qed.

Lemma sub_whole l n : length l = n -> sub l 0 n = l.
Proof. intros <-. apply sub_all. Qed.

(** Turn single bytes into [sub]s, join neighbours, close when the whole list
    has been reassembled. *)
Ltac join_subs :=
  repeat (first [ rewrite sub_join_assoc by reflexivity
                | rewrite sub_join by reflexivity ]);
  cbn [Nat.add].

Definition odflt {A} (d : A) (o : option A) : A :=
  match o with Some a => a | None => d end.

(** ** Bits *)

Lemma land_low_high v a n : 0 <= n -> 0 <= v < 2 ^ n -> Z.land v (a * 2 ^ n) = 0.
Proof.
  intros Hn Hv. apply Z.bits_inj'. intros i Hi.
  rewrite Z.land_spec, Z.bits_0. destruct (Z.lt_ge_cases i n).
  - rewrite Z.mul_pow2_bits_low by lia. apply andb_false_r.
  - destruct (Z.eq_dec v 0) as [->|]; [rewrite Z.bits_0; reflexivity|].
    rewrite (Z.bits_above_log2 v i); [reflexivity|lia|].
    assert (Z.log2 v < n) by (apply Z.log2_lt_pow2; lia). lia.
Qed.

Lemma lor_low_high v a n : 0 <= n -> 0 <= v < 2 ^ n -> Z.lor v (a * 2 ^ n) = v + a * 2 ^ n.
Proof.
  intros Hn Hv. pose proof (land_low_high v a n Hn Hv) as L.
  rewrite Z.add_nocarry_lxor by auto. symmetry. apply Z.lxor_lor. auto.
Qed.

Lemma testbit_top v n : 0 <= n -> 0 <= v < 2 ^ (n + 1) -> Z.testbit v n = (2 ^ n <=? v).
Proof.
  intros Hn Hv. rewrite Z.pow_add_r in Hv by lia. change (2 ^ 1) with 2 in Hv.
  assert (P : 0 < 2 ^ n) by (apply Z.pow_pos_nonneg; lia).
  pose proof (Z.div_mod v (2 ^ n)) as D. pose proof (Z.mod_pos_bound v (2 ^ n) P) as M.
  rewrite Z.testbit_eqb by lia.
  destruct (Z.leb_spec (2 ^ n) v).
  - assert (E : v / 2 ^ n = 1) by nia. rewrite E. reflexivity.
  - rewrite Z.div_small by lia. reflexivity.
Qed.

(** Concrete byte strings. *)
Definition bytes_okb (l : bytes) : bool := forallb (fun b => (0 <=? b) && (b <? 256)) l.

Lemma bytes_okb_ok l : bytes_okb l = true -> bytes_ok l.
Proof.
  unfold bytes_okb. rewrite forallb_forall. intros H. apply Forall_forall. intros b I.
  specialize (H b I). unfold byte_ok. lia.
Qed.
