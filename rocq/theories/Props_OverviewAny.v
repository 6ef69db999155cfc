(** Property C81, continued: writing an overview that did not come from a file. *)
From Verif Require Import Base Enums Chunks DDScalar Utf8 DDString DDRecord RawTypes Vu P_Records P_Scalar P_Vu Props_Nil.

(** ** Painting a part *)

(** Two canvases of one size that differ at most from [lo] to before [hi] *)
Definition within (lo hi : nat) (c c' : bytes) : Prop :=
  length c' = length c /\ forall k, (k < lo \/ hi <= k)%nat -> nth k c' 0 = nth k c 0.

Lemma within_refl lo hi c : within lo hi c c.
Proof. split; auto. Qed.
Lemma within_trans lo hi a b c : within lo hi a b -> within lo hi b c -> within lo hi a c.
Proof. intros [L1 H1] [L2 H2]. split; [congruence|]. intros k K. now rewrite H2, H1. Qed.
Lemma within_wider lo hi lo' hi' a b : within lo hi a b -> (lo' <= lo)%nat -> (hi <= hi')%nat -> within lo' hi' a b.
Proof. intros [L H] A B. split; [exact L|]. intros k K. apply H. lia. Qed.

Lemma paint_within c o n s : (o + n <= length c)%nat -> within o (o + n) c (paint c o n s).
Proof.
  intros L. unfold paint. split; [apply copy_into_length; lia|]. intros k K. apply nth_copy_into_out; lia.
Qed.
Lemma byte_within c o b : (o < length c)%nat -> within o (o + 1) c (set_byte c o b).
Proof. intros L. apply (paint_within c o 1 [b]). lia. Qed.

Lemma paints lo hi c c' o n s : within lo hi c c' -> (lo <= o)%nat -> (o + n <= hi)%nat -> (hi <= length c)%nat ->
  within lo hi c (paint c' o n s).
Proof.
  intros W A B L. apply (within_trans _ _ _ c'); [exact W|]. apply (within_wider o (o + n)); [|exact A|exact B].
  apply paint_within. rewrite (proj1 W). lia.
Qed.

Lemma lock_within c o l c' : paint_lock c o l = Ok c' -> (o + 98 <= length c)%nat -> within o (o + 98) c c'.
Proof.
  intros E L. unfold paint_lock in E.
  apply bind_ok in E as (b1 & _ & E). apply bind_ok in E as (b2 & _ & E). apply bind_ok in E as (b3 & _ & E).
  apply bind_ok in E as (b4 & _ & E). apply bind_ok in E as (b5 & _ & E). apply Ok_inj in E. subst c'.
  repeat (apply paints; [|lia..]). apply within_refl.
Qed.
Lemma control_within c o l c' : paint_control c o l = Ok c' -> (o + 31 <= length c)%nat -> within o (o + 31) c c'.
Proof.
  intros E L. unfold paint_control in E.
  apply bind_ok in E as (b1 & _ & E). apply bind_ok in E as (b2 & _ & E). apply bind_ok in E as (b3 & _ & E).
  apply bind_ok in E as (b4 & _ & E). apply bind_ok in E as (b5 & _ & E). apply Ok_inj in E. subst c'.
  repeat (apply paints; [|lia..]). apply within_refl.
Qed.

Lemma records_within {X} (f : bytes -> nat -> X -> res bytes) n :
  (forall c o x c', f c o x = Ok c' -> (o + n <= length c)%nat -> within o (o + n) c c') ->
  forall l c o c', paint_records f c o n l = Ok c' -> (o + n * length l <= length c)%nat -> within o (o + n * length l) c c'.
Proof.
  intros P l. induction l as [|x l IH]; intros c o c' E L; cbn [paint_records length] in *.
  - apply Ok_inj in E. subst c'. apply within_refl.
  - apply bind_ok in E as (d & D & E). apply P in D; [|lia].
    apply (within_trans _ _ _ d); [apply (within_wider o (o + n)); [exact D|lia..]|].
    apply (within_wider (o + n) (o + n + n * length l)); [|lia..]. apply IH; [exact E|]. rewrite (proj1 D). lia.
Qed.

Lemma records_np {X} (f : bytes -> nat -> X -> res bytes) n : (forall c o x, f c o x <> Panic) ->
  forall l c o, paint_records f c o n l <> Panic.
Proof. intros P l. induction l as [|x l IH]; intros c o; cbn [paint_records]; [discriminate|]. apply bind_np; auto. Qed.

Lemma painted_sub c o n s : (o + n <= length c)%nat -> length s = n -> sub (paint c o n s) o n = s.
Proof.
  intros L E. apply (nth_ext _ _ 0 0).
  - rewrite sub_length; [lia|]. rewrite (proj1 (paint_within c o n s L)). exact L.
  - intros k K. rewrite sub_length in K by (rewrite (proj1 (paint_within c o n s L)); exact L).
    rewrite nth_sub by exact K. unfold paint. rewrite nth_copy_into_in by lia. f_equal. lia.
Qed.

Lemma within_sub lo hi c c' o n : within lo hi c c' -> (o + n <= lo \/ hi <= o)%nat -> (o + n <= length c)%nat -> sub c' o n = sub c o n.
Proof.
  intros [Le W] K L. apply (nth_ext _ _ 0 0); [rewrite !sub_length; lia|]. intros k Hk. rewrite sub_length in Hk by lia.
  rewrite !nth_sub by exact Hk. apply W. lia.
Qed.

Lemma set_nth c o b : (o < length c)%nat -> nth o (set_byte c o b) 0 = b.
Proof. intros L. unfold set_byte. rewrite nth_copy_into_in by (cbn; lia). now rewrite Nat.sub_diag. Qed.

(** ** Any overview *)

(** Writing an overview never crashes, whatever the message is, and nil is refused.  What is
    written has the size of its records; the certificates and the signature are in their
    places, and the numbers of records as far as a byte goes. *)
Theorem C81_overview_any :
  append_overview_gen1 None = fail /\
  forall x, append_overview_gen1 (Some x) <> Panic /\
  forall d, append_overview_gen1 (Some x) = Ok d ->
    let p := (492 + 98 * length (ov_locks x))%nat in
    let q := (p + 1 + 31 * length (ov_controls x))%nat in
    length d = (q + 128)%nat /\
    (length (ov_ms_cert x) = 194%nat -> sub d 0 194 = ov_ms_cert x) /\
    (length (ov_vu_cert x) = 194%nat -> sub d 194 194 = ov_vu_cert x) /\
    nth 491 d 0 = Z.of_nat (length (ov_locks x)) mod 256 /\
    nth p d 0 = Z.of_nat (length (ov_controls x)) mod 256 /\
    (length (ov_signature x) = 128%nat -> sub d q 128 = ov_signature x).
Proof.
  split; [reflexivity|]. intros x. split.
  - unfold append_overview_gen1. cbv zeta.
    assert (PL : forall c o l, paint_lock c o l <> Panic) by (intros; unfold paint_lock; cbv zeta; calm3).
    assert (PC : forall c o l, paint_control c o l <> Panic) by (intros; unfold paint_control; cbv zeta; calm3).
    calm3; try (apply records_np; assumption).
  - intros d E. unfold append_overview_gen1 in E. cbv zeta in E.
    set (nl := length (ov_locks x)) in *. set (nc := length (ov_controls x)) in *.
    set (p := (492 + 98 * nl)%nat). replace (492 + nl * 98)%nat with p in E by (unfold p; lia).
    set (q := (p + 1 + 31 * nc)%nat). replace (p + 1 + nc * 31)%nat with q in E by (unfold q; lia).
    set (size := (491 + 1 + nl * 98 + 1 + nc * 31 + 128)%nat) in E.
    assert (Sq : size = (q + 128)%nat) by (unfold size, q, p; lia).
    set (c0 := if (length (ov_raw x) =? size)%nat then ov_raw x else zeros size) in E.
    assert (L0 : length c0 = size).
    { unfold c0. destruct (Nat.eqb_spec (length (ov_raw x)) size); [assumption|apply zeros_length]. }
    clearbody c0. set (c1 := paint c0 0 194 (ov_ms_cert x)) in E. set (c2 := paint c1 194 194 (ov_vu_cert x)) in E.
    assert (W1 : within 0 194 c0 c1) by (apply (paint_within c0 0 194); lia).
    assert (W2 : within 194 388 c1 c2) by (apply (paint_within c1 194 194); rewrite (proj1 W1); lia).
    assert (L1 : length c1 = size) by (rewrite (proj1 W1); exact L0).
    assert (L2 : length c2 = size) by (rewrite (proj1 W2); exact L1).
    apply bind_ok in E as (c3 & E3 & E). apply bind_ok in E as (c4 & E4 & E). apply bind_ok in E as (c5 & E5 & E).
    apply bind_ok in E as (c6 & E6 & E). apply bind_ok in E as (c7 & E7 & E).
    apply bind_ok in E as (c8 & E8 & E). apply bind_ok in E as (c9 & E9 & E). apply Ok_inj in E.
    assert (W3 : within 388 491 c2 c3).
    { destruct (ov_vin x); [apply bind_ok in E3 as (b & _ & E3)|]; apply Ok_inj in E3; subst c3; [apply paints; [|lia..]|]; apply within_refl. }
    assert (W4 : within 388 491 c2 c4).
    { destruct (ov_reg x); [apply bind_ok in E4 as (b & _ & E4)|]; apply Ok_inj in E4; subst c4; [apply paints; [|lia..]|]; exact W3. }
    assert (W5 : within 388 491 c2 c5).
    { destruct (ov_time x); [apply bind_ok in E5 as (b & _ & E5)|]; apply Ok_inj in E5; subst c5; [apply paints; [|lia..]|]; exact W4. }
    assert (W6 : within 388 491 c2 c6).
    { destruct (ov_period x) as [[t u]|]; [apply bind_ok in E6 as (b & _ & E6); apply bind_ok in E6 as (b' & _ & E6)|]; apply Ok_inj in E6; subst c6;
        [do 2 (apply paints; [|lia..])|]; exact W5. }
    set (sl := Z.lor _ _) in E7. clearbody sl.
    assert (W6' : within 388 491 c2 (set_byte c6 432 sl)) by (apply (paints 388 491 c2 c6 432 1 [sl]); [exact W6|lia..]).
    assert (W7 : within 388 491 c2 c7).
    { destruct (ov_downloads x) as [|a t]; [|apply bind_ok in E7 as (b & _ & E7); apply bind_ok in E7 as (b' & _ & E7); apply bind_ok in E7 as (b'' & _ & E7)];
        apply Ok_inj in E7; subst c7; [|do 3 (apply paints; [|lia..])]; exact W6'. }
    assert (L7 : length c7 = size) by (rewrite (proj1 W7); exact L2).
    set (c7' := set_byte c7 491 (u8 (Z.of_nat nl))) in E8.
    assert (W7' : within 491 492 c7 c7') by (apply (byte_within c7 491); lia).
    assert (L7' : length c7' = size) by (rewrite (proj1 W7'); exact L7).
    pose proof (records_within paint_lock 98 lock_within _ _ _ _ E8) as W8. fold nl in W8. specialize (W8 ltac:(lia)).
    assert (L8 : length c8 = size) by (rewrite (proj1 W8); exact L7').
    set (c8' := set_byte c8 p (u8 (Z.of_nat nc))) in E9.
    assert (W8' : within p (p + 1) c8 c8') by (apply byte_within; unfold q in Sq; lia).
    assert (L8' : length c8' = size) by (rewrite (proj1 W8'); exact L8).
    pose proof (records_within paint_control 31 control_within _ _ _ _ E9) as W9. fold nc in W9. specialize (W9 ltac:(unfold q in Sq; lia)).
    fold p in W8. change (p + 1 + 31 * nc)%nat with q in W9.
    assert (L9 : length c9 = size) by (rewrite (proj1 W9); exact L8').
    assert (Wd : within q (q + 128) c9 d) by (subst d; apply paint_within; lia).
    assert (Hp : (492 <= p)%nat) by (unfold p; lia). assert (Hq : (p + 1 <= q)%nat) by (unfold q; lia).
    (* what comes after the certificates *)
    assert (Wall : within 388 size c2 d).
    { apply (within_trans _ _ _ c7); [apply (within_wider 388 491); [exact W7|lia..]|].
      apply (within_trans _ _ _ c7'); [apply (within_wider 491 492); [exact W7'|lia..]|].
      apply (within_trans _ _ _ c8); [apply (within_wider 492 p); [exact W8|lia..]|].
      apply (within_trans _ _ _ c8'); [apply (within_wider p (p + 1)); [exact W8'|lia..]|].
      apply (within_trans _ _ _ c9); [apply (within_wider (p + 1) q); [exact W9|lia..]|].
      apply (within_wider q (q + 128)); [exact Wd|lia..]. }
    cbv zeta. split; [|split; [|split; [|split; [|split]]]].
    + rewrite (proj1 Wd), L9. exact Sq.
    + intros Lc. rewrite (within_sub _ _ _ _ 0 194 Wall), (within_sub _ _ _ _ 0 194 W2) by lia. apply painted_sub; [lia|exact Lc].
    + intros Lc. rewrite (within_sub _ _ _ _ 194 194 Wall) by lia. apply painted_sub; [lia|exact Lc].
    + rewrite (proj2 Wd) by lia. rewrite (proj2 W9) by lia. rewrite (proj2 W8') by lia. rewrite (proj2 W8) by lia.
      apply set_nth. lia.
    + rewrite (proj2 Wd) by lia. rewrite (proj2 W9) by lia. apply set_nth. lia.
    + intros Ls. subst d. apply painted_sub; [lia|exact Ls].
Qed.

(** With 256 locks the message is written, with the number 0 in front of them. *)
Definition many_locks : overview_gen1 :=
  mkOv [] (repeat 1 194) (repeat 2 194) None None None None 0 0 []
    (repeat (mkCL None None None None (Some (mkFCN EQ_DRIVER_CARD 0 None None))) 256) [] (repeat 3 128).

Example C81_overview_any_applies :
  exists d, append_overview_gen1 (Some many_locks) = Ok d /\
    length (ov_ms_cert many_locks) = 194%nat /\ length (ov_signature many_locks) = 128%nat /\
    nth 491 d 0 = 0.
Proof.
  assert (Y : match append_overview_gen1 (Some many_locks) with Ok _ => true | _ => false end = true) by (vm_cast_no_check (eq_refl true)).
  destruct (append_overview_gen1 (Some many_locks)) as [d|e|] eqn:E; [|discriminate Y..].
  exists d. split; [reflexivity|]. split; [reflexivity|]. split; [reflexivity|].
  pose proof (proj2 (proj2 C81_overview_any many_locks) d E) as P. cbv zeta in P.
  exact (proj1 (proj2 (proj2 (proj2 P)))).
Qed.
