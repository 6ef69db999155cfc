(** C132: the trust anchor and the certificates handed out. *)

From Verif Require Import Base Enums Chunks DDScalar RawTypes RawCard Infer Cert P_Cert DriverCard P_Driver Vu Verify Api P_Dump.
From Verif Require Import Props_RawCard Props_Dump Props_Driver Props_Cert Props_Verify Anchor.

(** What is handed out reads as [unmarshal_root] says. *)
Lemma handed_out a : (let* m := hand_out a in Ok (read_root a m)) = unmarshal_root a.
Proof. unfold hand_out, unmarshal_root. destruct (length a =? 144)%nat; reflexivity. Qed.

(** [x] writes or appends to a slice that is a part of the library's variable. *)
Definition intrudes (s : process) (x : action) : Prop :=
  match x with
  | Poke i w _ _ | Extend i w _ => exists m from len, nth_error (messages s) i = Some m /\ get_part m w = Window from len
  | _ => False
  end.

Section Run.
Variables (k : crypto) (g1 g2 : list (bytes * bytes)) (http : bytes -> res bytes) (ix : cert_index).
Notation run := (run_program k g1 g2 http ix).
Notation source := (source_now g1 g2 http ix).

Lemma run_last a xs x : run a (xs ++ [x]) = act k g1 g2 http ix (run a xs) x.
Proof. unfold run_program. now rewrite fold_left_app. Qed.

(** Windows start behind the key identifier and end with the variable. *)
Definition inside (p : part) : Prop := match p with Window from len => (8 <= from)%nat /\ (from + len <= 144)%nat | Own _ => True end.
Definition fits (m : root_message) : Prop := inside (rm_modulus m) /\ inside (rm_exponent m).

Lemma change_forall {X} (P : X -> Prop) l i f : Forall P l -> (forall x, P x -> P (f x)) -> Forall P (change_nth l i f).
Proof. intros A H. revert i. induction A as [|x l A0 A IH]; intros [|i]; cbn; constructor; auto. Qed.

Lemma set_fits m w p : fits m -> inside p -> fits (set_part m w p).
Proof. intros [A B] C. destruct w; split; auto. Qed.
Lemma get_fits m w : fits m -> inside (get_part m w).
Proof. intros [A B]. destruct w; auto. Qed.

Lemma put_length l i b : length (put l i b) = length l.
Proof.
  unfold put. destruct (i <? length l)%nat eqn:E; [|reflexivity]. apply Nat.ltb_lt in E.
  rewrite app_length, firstn_length, Nat.min_l by lia. cbn [length]. rewrite skipn_length. lia.
Qed.

Lemma put_before l i b n : (n <= i)%nat -> firstn n (put l i b) = firstn n l.
Proof.
  intros N. unfold put. destruct (i <? length l)%nat eqn:E; [|reflexivity]. apply Nat.ltb_lt in E.
  rewrite firstn_app, firstn_firstn, firstn_length, Nat.min_l by lia. replace (n - Nat.min i (length l))%nat with 0%nat by lia. cbn. apply app_nil_r.
Qed.

Lemma put_all_length b : forall l i, length (put_all l i b) = length l.
Proof. induction b as [|x b IH]; intros l i; cbn [put_all]; [reflexivity|]. now rewrite IH, put_length. Qed.

Lemma put_all_before b n : forall l i, (n <= i)%nat -> firstn n (put_all l i b) = firstn n l.
Proof. induction b as [|x b IH]; intros l i N; cbn [put_all]; [reflexivity|]. rewrite IH by lia. now apply put_before. Qed.

Lemma run_inside a xs : Forall fits (messages (run a xs)) /\ length (anchor (run a xs)) = length a /\ firstn 8 (anchor (run a xs)) = firstn 8 a.
Proof.
  induction xs as [|x xs IH] using rev_ind; [repeat split; constructor|]. rewrite run_last. destruct (run a xs) as [b ms vs]. cbn [anchor messages] in IH.
  destruct IH as (M & L & H). destruct x as [|i|i key|i w c|i w j v|i w p c|i w c|f]; cbn [act anchor messages].
  - unfold hand_out. destruct (length b =? 144)%nat; cbn; [|auto]. split; [|auto]. apply Forall_app. split; auto. constructor; [|constructor]. split; cbn; lia.
  - destruct (nth_error ms i) as [m|]; cbn; [|auto]. split; [|auto]. apply Forall_app. split; auto. constructor; [|constructor]. split; exact I.
  - split; [|auto]. apply change_forall; auto. 
  - split; [|auto]. apply change_forall; auto. intros m Hm. apply set_fits; [exact Hm|exact I].
  - destruct (nth_error ms j) as [mj|] eqn:E; cbn; [|auto]. split; [|auto]. apply change_forall; auto. intros m Hm. apply set_fits; auto.
    apply get_fits. apply nth_error_In in E. rewrite Forall_forall in M. auto.
  - destruct (nth_error ms i) as [m|] eqn:E; cbn [messages anchor]; [|auto].
    assert (G : inside (get_part m w)). { apply get_fits. apply nth_error_In in E. rewrite Forall_forall in M. auto. }
    destruct (get_part m w) as [from len|l]; cbn [write_part inside] in *.
    + destruct (p <? len)%nat; cbn [messages anchor].
      * split; [apply change_forall; auto; intros m0 Hm; apply set_fits; auto|]. rewrite put_length, put_before by lia. auto.
      * split; [apply change_forall; auto; intros m0 Hm; apply set_fits; auto|]. auto.
    + split; [|auto]. apply change_forall; auto. intros m0 Hm. apply set_fits; [exact Hm|exact I].
  - destruct (nth_error ms i) as [m|] eqn:E; cbn [messages anchor]; [|auto]. split; [exact M|].
    assert (G : inside (get_part m w)). { apply get_fits. apply nth_error_In in E. rewrite Forall_forall in M. auto. }
    destruct (get_part m w) as [from len|l]; cbn [extend_part inside] in *; [|auto].
    destruct (from + len + length c <=? length b)%nat; [|auto]. rewrite put_all_length, put_all_before by lia. auto.
  - auto.
Qed.

Lemma quiet_step a xs x : ~ intrudes (run a xs) x -> anchor (run a (xs ++ [x])) = anchor (run a xs).
Proof.
  rewrite run_last. destruct (run a xs) as [b ms vs]. intros N.
  destruct x as [|i|i key|i w c|i w j v|i w p c|i w c|f]; cbn [act anchor messages]; auto.
  - destruct (hand_out b); reflexivity.
  - destruct (nth_error ms i); reflexivity.
  - destruct (nth_error ms j); reflexivity.
  - destruct (nth_error ms i) as [m|] eqn:E; [|reflexivity]. destruct (get_part m w) as [from len|l] eqn:W; [|reflexivity].
    exfalso. apply N. cbn. eauto.
  - destruct (nth_error ms i) as [m|] eqn:E; [|reflexivity]. destruct (get_part m w) as [from len|l] eqn:W; [|reflexivity].
    exfalso. apply N. cbn. eauto.
Qed.
End Run.

(** As long as the program writes only to memory of its own (setters, clones, and
    slices it has made), the anchor stays, root certificates are handed out as from
    the start, and every file gets the verdict it would get at the start.  Whatever
    the program writes, the identifier of the anchor and its length stay.

    Partial: a program can write to the slices the getters of a root certificate give. *)
Theorem C132_anchor_partial : forall k g1 g2 http ix a xs,
  (forall before x after, xs = before ++ x :: after -> ~ intrudes (run_program k g1 g2 http ix a before) x) ->
  anchor (run_program k g1 g2 http ix a xs) = a /\
  forall f o, In (f, o) (verdicts (run_program k g1 g2 http ix a xs)) ->
    o = fst (verify_file k (default_resolver (mkFiles a g1 g2) http ix) f).
Proof.
  intros k g1 g2 http ix a xs. induction xs as [|x xs IH] using rev_ind.
  - intros _. split; [reflexivity|]. intros f o [].
  - intros N. assert (E : anchor (run_program k g1 g2 http ix a (xs ++ [x])) = anchor (run_program k g1 g2 http ix a xs)).
    { apply quiet_step. apply (N xs x []). reflexivity. }
    destruct IH as [I1 I2]. { intros b y c ->. apply (N b y (c ++ [x])). now rewrite <- app_assoc. }
    split; [congruence|]. clear E. intros f o. rewrite run_last. destruct (run_program k g1 g2 http ix a xs) as [b ms vs]. cbn [anchor verdicts] in *. subst b.
    destruct x as [|i|i key|i w c|i w j v|i w p c|i w c|g]; cbn [act anchor messages verdicts]; try exact (I2 f o).
    + destruct (hand_out a); exact (I2 f o).
    + destruct (nth_error ms i); exact (I2 f o).
    + destruct (nth_error ms j); exact (I2 f o).
    + destruct (nth_error ms i); [|exact (I2 f o)]. destruct (write_part a (get_part r w) p c). exact (I2 f o).
    + destruct (nth_error ms i); exact (I2 f o).
    + intros H. apply in_app_iff in H as [H|[H|[]]]; [exact (I2 f o H)|]. injection H as -> <-. reflexivity.
Qed.
Print Assumptions C132_anchor_partial.

Theorem C132_identifier : forall k g1 g2 http ix a xs,
  length (anchor (run_program k g1 g2 http ix a xs)) = length a /\
  firstn 8 (anchor (run_program k g1 g2 http ix a xs)) = firstn 8 a.
Proof. intros k g1 g2 http ix a xs. apply run_inside. Qed.
Print Assumptions C132_identifier.

(** A program that clones a root certificate, writes to the clone and verifies the toy
    card: nothing is changed. *)
Example C132_example : exists f, let xs := [Ask; Copy 0; Poke 1 Exponent 7 3; Check f] in
  (forall before x after, xs = before ++ x :: after -> ~ intrudes (run_program toy [] [] toy_http toy_index toy_root before) x) /\
  (exists m, nth_error (messages (run_program toy [] [] toy_http toy_index toy_root xs)) 1 = Some m /\
     read_part toy_root (rm_exponent m) = to_be 8 3) /\
  verdicts (run_program toy [] [] toy_http toy_index toy_root xs) = [(f, Ok tt)].
Proof.
  destruct toy_verified as (c & (_ & _ & O) & _). exists (Some (driver_file c)). cbv zeta. split; [|split].
  - intros before x after E.
    destruct before as [|x0 [|x1 [|x2 [|x3 [|x4 before]]]]]; cbn in E; try (injection E; intros; subst; cbn; tauto); try discriminate E.
    injection E as <- <- <- <-. vm_compute. intros (m & from & len & E & W). injection E as <-. discriminate W.
  - eexists. split; vm_compute; reflexivity.
  - assert (A : anchor (run_program toy [] [] toy_http toy_index toy_root [Ask; Copy 0; Poke 1 Exponent 7 3]) = toy_root) by (vm_compute; reflexivity).
    assert (W : verdicts (run_program toy [] [] toy_http toy_index toy_root [Ask; Copy 0; Poke 1 Exponent 7 3]) = []) by (vm_compute; reflexivity).
    change [Ask; Copy 0; Poke 1 Exponent 7 3; Check (Some (driver_file c))] with ([Ask; Copy 0; Poke 1 Exponent 7 3] ++ [Check (Some (driver_file c))]).
    rewrite run_last. revert A W. generalize (run_program toy [] [] toy_http toy_index toy_root [Ask; Copy 0; Poke 1 Exponent 7 3]).
    intros [b ms vs]. cbn [anchor verdicts act]. intros -> ->. cbn [List.app]. unfold source_now. fold (toy_files toy_root). fold (toy_resolver toy_root).
    rewrite O. reflexivity.
Qed.

(** A root key with exponent 3; the toy authority certificate is not signed with it. *)
Definition other_root : bytes := to_be 8 1 ++ toy_key ++ to_be 8 3.

(** A program that writes one byte of the exponent it was handed, or appends eight
    bytes to the modulus: a card that was refused is accepted afterwards. *)
Theorem C132_anchor_refuted : exists k http ix a us c e, let f := Some (driver_file c) in
  Forall dumped_ok us /\ accepted no_charmap us c /\
  verdicts (run_program k [] [] http ix a [Check f; Ask; Poke 0 Exponent 7 1; Check f]) = [(f, Err e); (f, Ok tt)] /\
  verdicts (run_program k [] [] http ix a [Check f; Ask; Extend 0 Modulus (to_be 8 1); Check f]) = [(f, Err e); (f, Ok tt)].
Proof.
  assert (H : exists c, verified toy (toy_resolver toy_root) (toy_dump [0; 0; 0; 1] [0; 0; 0; 1] 1) c /\
    (match fst (verify_file toy (toy_resolver other_root) (Some (driver_file c))) with Err _ => true | _ => false end) = true).
  { apply verified_b_ok. vm_compute. reflexivity. }
  destruct H as (c & (V & A & O) & H).
  destruct (fst (verify_file toy (toy_resolver other_root) (Some (driver_file c)))) as [?|e|] eqn:R; try discriminate H.
  exists toy, toy_http, toy_index, other_root. eexists. exists c, e. cbv zeta. split; [exact V|]. split; [exact A|].
  assert (HO : hand_out other_root = Ok (mkRootMessage (dec (be (sub other_root 0 8))) (Window 8 128) (Window 136 8))) by (vm_compute; reflexivity).
  split.
  - unfold run_program. cbn [fold_left act anchor messages verdicts].
    change (source_now [] [] toy_http toy_index other_root) with (toy_resolver other_root). rewrite HO.
    cbn [anchor messages verdicts List.app nth_error get_part rm_exponent write_part]. change (7 <? 8)%nat with true. cbv iota.
    cbn [anchor messages verdicts List.app]. rewrite R.
    replace (put other_root (136 + 7) 1) with toy_root by (vm_compute; reflexivity).
    change (source_now [] [] toy_http toy_index toy_root) with (toy_resolver toy_root). rewrite O. reflexivity.
  - unfold run_program. cbn [fold_left act anchor messages verdicts].
    change (source_now [] [] toy_http toy_index other_root) with (toy_resolver other_root). rewrite HO.
    cbn [anchor messages verdicts List.app nth_error get_part rm_modulus]. rewrite R.
    replace (extend_part other_root (Window 8 128) (to_be 8 1)) with toy_root by (vm_compute; reflexivity).
    change (source_now [] [] toy_http toy_index toy_root) with (toy_resolver toy_root). rewrite O. reflexivity.
Qed.
Print Assumptions C132_anchor_refuted.
