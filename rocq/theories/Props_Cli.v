(** C102: what the parse command prints. *)

From Verif Require Import Base RawTypes RawCard Infer DriverCard Vu Verify Api Cli Props_Dump.


(** How reading and parsing one file ends. *)
Definition file_at {name} (cm : Z -> Z -> Z) (disk : name -> res bytes) (a : name) : res file :=
  match disk a with
  | Ok d => unmarshal_file cm d
  | Err e => Err e
  | Panic => Panic
  end.

Definition shown {name text} cm disk (show : file -> text) (a : name) (t : text) : Prop :=
  exists d f, disk a = Ok d /\ unmarshal_file cm d = Ok f /\ t = show f.

Lemma loop_step {name text} cm (disk : name -> res bytes) (show : file -> text) a rest :
  parse_loop name text cm disk show (a :: rest) =
  match file_at cm disk a with
  | Ok f => let '(out, r) := parse_loop name text cm disk show rest in (show f :: out, r)
  | Err e => ([], Err e)
  | Panic => ([], Panic)
  end.
Proof. cbn [parse_loop]. unfold file_at. destruct (disk a); reflexivity. Qed.

Lemma shown_iff {name text} cm disk (show : file -> text) (a : name) t :
  shown cm disk show a t <-> exists f, file_at cm disk a = Ok f /\ t = show f.
Proof.
  unfold shown, file_at. split.
  - intros (d & f & -> & U & ->). eauto.
  - intros (f & E & ->). destruct (disk a) as [d| |]; try discriminate. eauto.
Qed.

Lemma loop_ok {name text} cm (disk : name -> res bytes) (show : file -> text) args : forall out,
  parse_loop name text cm disk show args = (out, Ok tt) <-> Forall2 (shown cm disk show) args out.
Proof.
  induction args as [|a rest IH]; intros out.
  - cbn. split; [intros E; injection E as <-; constructor|inversion 1; reflexivity].
  - rewrite loop_step. split.
    + destruct (file_at cm disk a) as [f| |] eqn:U; try discriminate. destruct (parse_loop _ _ _ _ _ rest) as [o r] eqn:P.
      intros E. injection E as <- ->. constructor; [apply shown_iff; eauto|]. now apply IH.
    + inversion 1 as [|x t xs ts S R]; subst. apply shown_iff in S as (f & -> & ->). apply IH in R. now rewrite R.
Qed.

Lemma loop_bad {name text} cm (disk : name -> res bytes) (show : file -> text) args (bad : res unit) :
  bad <> Ok tt -> forall out,
  parse_loop name text cm disk show args = (out, bad) <->
  exists pre a post, args = pre ++ a :: post /\ Forall2 (shown cm disk show) pre out /\
    match file_at cm disk a with Ok _ => False | Err e => bad = Err e | Panic => bad = Panic end.
Proof.
  intros N. induction args as [|a rest IH]; intros out.
  - cbn. split; [intros E; injection E as <- <-; now destruct N|intros (pre & a & post & E & _); destruct pre; discriminate].
  - rewrite loop_step. split.
    + destruct (file_at cm disk a) as [f|e|] eqn:U.
      * specialize (IH (fst (parse_loop name text cm disk show rest))).
        destruct (parse_loop _ _ _ _ _ rest) as [o r]. intros E. injection E as <- ->.
        destruct (proj1 IH eq_refl) as (pre & b & post & -> & F & B). exists (a :: pre), b, post. split; [reflexivity|]. split; auto.
        constructor; auto. apply shown_iff. eauto.
      * intros E. injection E as <- <-. exists [], a, rest. rewrite U. repeat split. constructor.
      * intros E. injection E as <- <-. exists [], a, rest. rewrite U. repeat split. constructor.
    + intros (pre & b & post & E & F & B). destruct pre as [|x pre].
      * injection E as <- <-. inversion F; subst. destruct (file_at cm disk a); [contradiction| |]; now subst.
      * injection E as <- ->. inversion F as [|y t ys ts S R]; subst. apply shown_iff in S as (f & -> & ->).
        rewrite (proj2 (IH ts)); [reflexivity|]. exists pre, b, post. auto.
Qed.

(** * C102 *)

Theorem C102_parse_command : forall name text cm (disk : name -> res bytes) (show : file -> text) args out end_,
  parse_command name text cm disk show args = (out, end_) ->
  (* success: every file was read and accepted, and one text was printed for each, in
     the order given *)
  (end_ = Ok tt <-> args <> [] /\ forall a, In a args -> exists d f, disk a = Ok d /\ unmarshal_file cm d = Ok f) /\
  (end_ = Ok tt -> Forall2 (shown cm disk show) args out) /\
  (* otherwise exactly the files in front of the first bad one are printed, and the
     command ends as that file's does *)
  (end_ <> Ok tt -> args <> [] -> exists pre a post, args = pre ++ a :: post /\
     Forall2 (shown cm disk show) pre out /\
     match disk a with
     | Ok d => match unmarshal_file cm d with Ok _ => False | Err e => end_ = Err e | Panic => end_ = Panic end
     | Err e => end_ = Err e
     | Panic => end_ = Panic
     end) /\
  (* the files behind it are not looked at *)
  (end_ <> Ok tt -> args <> [] -> forall more, parse_command name text cm disk show (args ++ more) = (out, end_)).
Proof.
  intros name text cm disk show args out end_ E.
  assert (L : args <> [] -> parse_loop name text cm disk show args = (out, end_)) by (destruct args; [congruence|intros _; exact E]).
  split; [|split; [|split]].
  - split.
    + intros ->. destruct args as [|a0 args]; [discriminate E|]. split; [discriminate|]. specialize (L ltac:(discriminate)).
      apply loop_ok in L. intros a I. clear E. revert out L. induction (a0 :: args) as [|b l IH]; intros out L; [contradiction|].
      inversion L as [|x t xs ts S R]; subst. destruct I as [->|I]; [|eauto]. destruct S as (d & f & ? & ? & _). eauto.
    + intros [N A]. specialize (L N). destruct end_ as [[]|e|]; auto; exfalso.
      * apply loop_bad in L as (pre & a & post & -> & _ & B); [|discriminate].
        destruct (A a) as (d & f & D & F); [apply in_app_iff; right; now left|]. unfold file_at in B. rewrite D, F in B. exact B.
      * apply loop_bad in L as (pre & a & post & -> & _ & B); [|discriminate].
        destruct (A a) as (d & f & D & F); [apply in_app_iff; right; now left|]. unfold file_at in B. rewrite D, F in B. exact B.
  - intros ->. destruct args as [|a0 args]; [discriminate E|]. apply loop_ok. apply L. discriminate.
  - intros N A. specialize (L A). apply loop_bad in L as (pre & a & post & -> & F & B); auto.
    exists pre, a, post. split; auto. split; auto. unfold file_at in B. destruct (disk a); auto.
  - intros N A more. specialize (L A). apply loop_bad in L as (pre & a & post & -> & F & B); auto.
    destruct pre as [|x pre]; cbn [List.app]; unfold parse_command;
      (apply loop_bad; [auto|]; [eexists _, a, (post ++ more); split; [|split; [exact F|exact B]]; cbn [List.app]; now rewrite <- ?app_assoc]).
Qed.
Print Assumptions C102_parse_command.

(** One bad file hides the files behind it, and a truncated download crashes the
    command. *)
Theorem C102_every_file_refuted : exists cm (disk : bool -> res bytes) good bad,
  (exists d f, disk good = Ok d /\ unmarshal_file cm d = Ok f) /\
  forall show, parse_command bool file cm disk show [bad; good] = ([], Panic).
Proof.
  exists no_charmap, (fun b : bool => if b then Ok [0x00; 0x02; 0x01; 0x00; 1; 7] else Ok [0x76; 0x01]), true, false. split.
  - eexists. eexists. split; [reflexivity|]. vm_compute. reflexivity.
  - intros show. vm_compute. reflexivity.
Qed.
Print Assumptions C102_every_file_refuted.

Example C102_example : exists f,
  parse_command nat file no_charmap (fun n => match n with O => Ok [0x00; 0x02; 0x01; 0x00; 1; 7] | _ => fail end) (fun f => f) [0; 0; 1; 0]%nat =
  ([f; f], fail) /\ file_type f = FILE_RAW_CARD.
Proof. eexists. split; vm_compute; reflexivity. Qed.
