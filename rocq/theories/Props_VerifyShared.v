(** C105: a source that keeps its certificates does not change verdicts. *)

From Verif Require Import Base Enums Chunks DDScalar RawTypes RawCard Infer Cert P_Cert DriverCard P_Driver Vu Verify Api P_Dump.
From Verif Require Import Props_Dump Props_Driver Props_Cert Props_Verify VerifyShared.

Section Source.
Variables (k : crypto) (r : resolver).

(** Certificates of the source come as parsed, without a key, or have a complete
    key. *)
Definition whole_keys : Prop := forall q a, get_rsa r q = Ok (Some a) ->
  (rsa_n a = [] /\ rsa_e a = []) \/ (rsa_n a <> [] /\ rsa_e a <> []).

(** ** Recovery looks at nothing but the raw bytes *)

Lemma verify_rsa_raw c c' n e chr : rsa_raw c = rsa_raw c' ->
  fst (verify_rsa k c n e chr) = fst (verify_rsa k c' n e chr) /\
  (fst (verify_rsa k c n e chr) = Ok tt -> snd (verify_rsa k c n e chr) = snd (verify_rsa k c' n e chr)).
Proof.
  intros E. unfold verify_rsa. rewrite E. cbv zeta.
  repeat match goal with
         | |- context [if ?b then (fail, c) else _] => destruct b; [cbn [fst snd]; split; [reflexivity|discriminate]|]
         | |- context [if ?b then (fail, rsa_mark c false) else _] =>
             destruct b; [cbn [fst snd]; split; [reflexivity|discriminate]|]
         end.
  cbn [fst snd]. split; reflexivity.
Qed.

Lemma with_root_raw c c' root : rsa_raw c = rsa_raw c' ->
  fst (verify_rsa_with_root k c root) = fst (verify_rsa_with_root k c' root) /\
  (fst (verify_rsa_with_root k c root) = Ok tt ->
   snd (verify_rsa_with_root k c root) = snd (verify_rsa_with_root k c' root)).
Proof.
  intros E. destruct root as [t|]; cbn; [now apply verify_rsa_raw|]. split; [reflexivity|]. discriminate.
Qed.

(** The root vouches for [a]; afterwards it is [new]. *)
Definition vouched (a new : rsa_cert) : Prop :=
  exists root, get_root r = Ok root /\ verify_rsa_with_root k a root = (Ok tt, new).

Lemma vouched_fun a n1 n2 : vouched a n1 -> vouched a n2 -> n1 = n2.
Proof. intros (t & E & V) (t' & E' & V'). congruence. Qed.

(** ** Invariants *)

Definition sound (h : heap) : Prop := forall q a, get_rsa r q = Ok (Some a) ->
  (rsa_n a <> [] -> h q = a) /\
  (rsa_n a = [] -> rsa_raw (h q) = rsa_raw a /\
     (rsa_n (h q) = [] \/ exists new, vouched a new /\ rsa_n (h q) = rsa_n new /\ rsa_chr (h q) = rsa_chr new) /\
     (rsa_e (h q) = [] \/ exists new, vouched a new /\ rsa_e (h q) = rsa_e new /\ rsa_n (h q) = rsa_n new /\
                                      rsa_chr (h q) = rsa_chr new)).

Definition grows (h h' : heap) : Prop := forall q a, get_rsa r q = Ok (Some a) ->
  (rsa_n a <> [] -> h' q = h q) /\
  (forall new, rsa_n a = [] -> vouched a new ->
     (rsa_chr (h q) = rsa_chr new -> rsa_chr (h' q) = rsa_chr new) /\
     (rsa_n (h q) = rsa_n new -> rsa_n (h' q) = rsa_n new) /\
     (rsa_e (h q) = rsa_e new -> rsa_e (h' q) = rsa_e new)).

Lemma grows_refl h : grows h h.
Proof. intros q a E. split; auto. Qed.

(** The authority's certificate as a source without memory gives it *)
Definition authority (a f : rsa_cert) : Prop :=
  (rsa_n a <> [] /\ f = a) \/ (rsa_n a = [] /\ vouched a f).

Definition full (h : heap) (q : bytes) (f : rsa_cert) : Prop :=
  rsa_n (h q) = rsa_n f /\ rsa_e (h q) = rsa_e f /\ rsa_chr (h q) = rsa_chr f.

Definition on_track (h : heap) (c : driver_card) (p : next) : Prop :=
  match p with
  | Fetch => True
  | Done o c' => (o, c') = verify_driver_card k (Some r) c
  | _ => dc_has c Gen1 = true /\ exists x a, card_certificate c = Some x /\ get_rsa r (rsa_car x) = Ok (Some a) /\
      let q := rsa_car x in
      match p with
      | Check_modulus => True
      | Check_exponent => rsa_n a <> [] \/ (exists new, vouched a new /\ rsa_n (h q) = rsa_n new /\ rsa_chr (h q) = rsa_chr new)
      | Recover => rsa_n a = []
      | Mark_invalid e => rsa_n a = [] /\ exists root b, get_root r = Ok root /\ verify_rsa_with_root k a root = (Err e, b)
      | Set_valid new | Set_chr new => rsa_n a = [] /\ vouched a new
      | Set_car new | Set_eov new | Set_modulus new => rsa_n a = [] /\ vouched a new /\ rsa_chr (h q) = rsa_chr new
      | Set_exponent new => rsa_n a = [] /\ vouched a new /\ rsa_chr (h q) = rsa_chr new /\ rsa_n (h q) = rsa_n new
      | Get_modulus => exists f, authority a f /\ full h q f
      | Get_exponent n => exists f, authority a f /\ full h q f /\ n = rsa_n f
      | Get_chr n e => exists f, authority a f /\ full h q f /\ n = rsa_n f /\ e = rsa_e f
      | _ => True
      end
  end.

Lemma full_grows h h' q a f : grows h h' -> get_rsa r q = Ok (Some a) -> authority a f -> full h q f -> full h' q f.
Proof.
  intros G Ea [[Na ->]|[Na V]] (F1 & F2 & F3).
  - destruct (G q a Ea) as [E _]. unfold full. rewrite (E Na). auto.
  - destruct (G q a Ea) as [_ E]. destruct (E f Na V) as (G1 & G2 & G3). unfold full. auto.
Qed.

Lemma on_track_grows h h' c p : grows h h' -> on_track h c p -> on_track h' c p.
Proof.
  intros G T. destruct p; cbn [on_track] in *; try exact T;
    destruct T as (D & x & a & Ex & Ea & T); split; try exact D; exists x, a; (split; [exact Ex|]);
    (split; [exact Ea|]); cbv zeta in *; try exact T.
  - destruct T as [Na|(new & V & Hn & Hc)]; [now left|]. destruct (list_eq_dec Z.eq_dec (rsa_n a) []) as [Na|Na]; [|now left].
    right. exists new. destruct (G _ _ Ea) as [_ E]. destruct (E new Na V) as (G1 & G2 & G3). auto.
  - destruct T as (Na & V & Hc). destruct (G _ _ Ea) as [_ E]. destruct (E _ Na V) as (G1 & G2 & G3). auto.
  - destruct T as (Na & V & Hc). destruct (G _ _ Ea) as [_ E]. destruct (E _ Na V) as (G1 & G2 & G3). auto.
  - destruct T as (Na & V & Hc). destruct (G _ _ Ea) as [_ E]. destruct (E _ Na V) as (G1 & G2 & G3). auto.
  - destruct T as (Na & V & Hc & Hn). destruct (G _ _ Ea) as [_ E]. destruct (E _ Na V) as (G1 & G2 & G3). auto.
  - destruct T as (f & A & F1). exists f. split; [exact A|]. eapply full_grows; eassumption.
  - destruct T as (f & A & F1 & Q). exists f. split; [exact A|]. split; [|exact Q]. eapply full_grows; eassumption.
  - destruct T as (f & A & F1 & Q). exists f. split; [exact A|]. split; [|exact Q]. eapply full_grows; eassumption.
Qed.

(** ** Writes *)

Lemma write_here h q c : write h q c q = c.
Proof. unfold write. now destruct (list_eq_dec Z.eq_dec q q). Qed.

Lemma write_other h q c p : p <> q -> write h q c p = h p.
Proof. intros N. unfold write. now destruct (list_eq_dec Z.eq_dec p q). Qed.

(** A write that keeps the raw bytes and moves each field to its final value or
    leaves it alone *)
Lemma write_sound h q a b : sound h -> get_rsa r q = Ok (Some a) -> rsa_n a = [] ->
  rsa_raw b = rsa_raw (h q) ->
  (exists new, vouched a new /\
     (rsa_chr b = rsa_chr (h q) \/ rsa_chr b = rsa_chr new) /\
     (rsa_n b = rsa_n (h q) \/ (rsa_n b = rsa_n new /\ rsa_chr b = rsa_chr new)) /\
     (rsa_e b = rsa_e (h q) \/ (rsa_e b = rsa_e new /\ rsa_n b = rsa_n new /\ rsa_chr b = rsa_chr new))) \/
  (rsa_chr b = rsa_chr (h q) /\ rsa_n b = rsa_n (h q) /\ rsa_e b = rsa_e (h q)) ->
  sound (write h q b) /\ grows h (write h q b).
Proof.
  intros So Ea Na Hr W. split.
  - intros p a' Ea'. destruct (list_eq_dec Z.eq_dec p q) as [->|N]; [|rewrite write_other by exact N; now apply So].
    rewrite write_here. assert (a' = a) by congruence. subst a'. split; [congruence|]. intros _.
    destruct (So q a Ea) as [_ S2]. destruct (S2 Na) as (R & Sn & Se). split; [congruence|].
    destruct W as [(new & V & Wc & Wn & We)|(Wc & Wn & We)].
    + assert (Hn : rsa_n b = [] \/ exists new0, vouched a new0 /\ rsa_n b = rsa_n new0 /\ rsa_chr b = rsa_chr new0).
      { destruct Wn as [Wn|[Wn Wn']]; [|right; eauto]. rewrite Wn. destruct Sn as [Sn|(n0 & V0 & Q1 & Q2)]; [now left|].
        right. pose proof (vouched_fun _ _ _ V V0). subst n0. exists new. repeat split; auto.
        destruct Wc as [Wc|Wc]; congruence. }
      split; [exact Hn|].
      destruct We as [We|(We & We' & We'')]; [|right; eauto]. rewrite We.
      destruct Se as [Se|(n0 & V0 & Q1 & Q2 & Q3)]; [now left|].
      right. pose proof (vouched_fun _ _ _ V V0). subst n0. exists new. repeat split; auto.
      * destruct Wn as [Wn|[Wn _]]; congruence.
      * destruct Wc as [Wc|Wc]; congruence.
    + rewrite Wn, We, Wc. auto.
  - intros p a' Ea'. destruct (list_eq_dec Z.eq_dec p q) as [->|N]; [|rewrite write_other by exact N; split; auto].
    rewrite write_here. assert (a' = a) by congruence. subst a'. split; [congruence|]. intros n0 _ V0.
    destruct W as [(new & V & Wc & Wn & We)|(Wc & Wn & We)].
    + pose proof (vouched_fun _ _ _ V V0). subst n0. repeat split.
      * destruct Wc as [Wc|Wc]; congruence.
      * destruct Wn as [Wn|[Wn _]]; congruence.
      * destruct We as [We|[We _]]; congruence.
    + rewrite Wn, We, Wc. auto.
Qed.

(** ** Steps *)

Lemma finish_done o c : exists o' c', finish k r o c = Done o' c' /\
  (o', c') = match o with
             | Ok _ => if dc_has c Gen2 then verify_gen2 k (Some r) c else (Ok tt, c)
             | _ => (o, c)
             end.
Proof.
  unfold finish. destruct o as [u| |]; [|eauto..]. destruct (dc_has c Gen2); [|eauto].
  destruct (verify_gen2 k (Some r) c) as [o' c']. eauto.
Qed.

Lemma empty_length (b : bytes) : (length b =? 0)%nat = true <-> b = [].
Proof. destruct b; cbn; split; congruence. Qed.

Lemma obtain_authority c x a f : get_rsa r (rsa_car x) = Ok (Some a) -> whole_keys -> authority a f ->
  obtain_rsa_ca k (Some r) c x = Ok f.
Proof.
  intros Ea Wk A. unfold obtain_rsa_ca. rewrite Ea. cbn [bind odflt].
  destruct A as [[Na ->]|[Na (root & Er & V)]].
  - destruct (Wk _ _ Ea) as [[W _]|[W1 W2]]; [congruence|].
    destruct (length (rsa_n a) =? 0)%nat eqn:E1; [apply empty_length in E1; congruence|].
    destruct (length (rsa_e a) =? 0)%nat eqn:E2; [apply empty_length in E2; congruence|]. reflexivity.
  - rewrite Na. cbn [length Nat.eqb orb]. rewrite Er. cbn [bind]. now rewrite V.
Qed.

Lemma advance_keeps h c p : whole_keys -> sound h -> on_track h c p ->
  sound (fst (advance k r c h p)) /\ grows h (fst (advance k r c h p)) /\
  on_track (fst (advance k r c h p)) c (snd (advance k r c h p)).
Proof.
  intros Wk So T.
  assert (Still : forall p', on_track h c p' -> sound h /\ grows h h /\ on_track h c p').
  { intros p' T'. split; [exact So|]. split; [apply grows_refl|exact T']. }
  destruct p; cbn [advance fst snd].
  - (* Fetch *)
    destruct (dc_has c Gen1) eqn:D.
    + destruct (card_certificate c) as [x|] eqn:Ex.
      * destruct (get_rsa r (rsa_car x)) as [[a|]|e|] eqn:Ea; cbn [fst snd]; apply Still; cbn [on_track].
        -- split; [exact D|]. exists x, a. auto.
        -- unfold verify_driver_card, verify_gen1. rewrite D, Ex. unfold obtain_rsa_ca. rewrite Ea. cbn [bind odflt rsa_n length Nat.eqb orb].
           destruct (get_root r); reflexivity.
        -- unfold verify_driver_card, verify_gen1. rewrite D, Ex. unfold obtain_rsa_ca. rewrite Ea. reflexivity.
        -- unfold verify_driver_card, verify_gen1. rewrite D, Ex. unfold obtain_rsa_ca. rewrite Ea. reflexivity.
      * cbn [fst snd]. apply Still. cbn [on_track]. unfold verify_driver_card, verify_gen1. now rewrite D, Ex.
    + cbn [fst snd]. destruct (finish_done (Ok tt) c) as (o' & c' & -> & E). apply Still. cbn [on_track].
      rewrite E. unfold verify_driver_card. now rewrite D.
  - (* Check_modulus *)
    destruct T as (D & x & a & Ex & Ea & T). rewrite Ex. cbn [fst snd]. apply Still.
    destruct (So _ _ Ea) as [S1 S2].
    destruct (length (rsa_n (h (rsa_car x))) =? 0)%nat eqn:El.
    + cbn [on_track]. split; [exact D|]. exists x, a. split; [exact Ex|]. split; [exact Ea|].
      apply empty_length in El. destruct (list_eq_dec Z.eq_dec (rsa_n a) []) as [Na|Na]; [exact Na|].
      rewrite (S1 Na) in El. congruence.
    + cbn [on_track]. split; [exact D|]. exists x, a. split; [exact Ex|]. split; [exact Ea|]. cbv zeta.
      destruct (list_eq_dec Z.eq_dec (rsa_n a) []) as [Na|Na]; [|now left]. right.
      destruct (S2 Na) as (_ & [Sn|Sn] & _); [apply empty_length in Sn; congruence|exact Sn].
  - (* Check_exponent *)
    destruct T as (D & x & a & Ex & Ea & T). rewrite Ex. cbn [fst snd]. apply Still.
    destruct (So _ _ Ea) as [S1 S2].
    destruct (length (rsa_e (h (rsa_car x))) =? 0)%nat eqn:El.
    + cbn [on_track]. split; [exact D|]. exists x, a. split; [exact Ex|]. split; [exact Ea|].
      apply empty_length in El. destruct (list_eq_dec Z.eq_dec (rsa_n a) []) as [Na|Na]; [exact Na|].
      rewrite (S1 Na) in El. destruct (Wk _ _ Ea) as [[W1 W2]|[W1 W2]]; congruence.
    + cbn [on_track]. split; [exact D|]. exists x, a. split; [exact Ex|]. split; [exact Ea|]. cbv zeta.
      destruct (list_eq_dec Z.eq_dec (rsa_n a) []) as [Na|Na].
      * destruct (S2 Na) as (_ & _ & [Se|(new & V & Q1 & Q2 & Q3)]); [apply empty_length in Se; congruence|].
        exists new. split; [right; auto|]. unfold full. auto.
      * exists a. split; [left; auto|]. unfold full. rewrite (S1 Na). auto.
  - (* Recover *)
    destruct T as (D & x & a & Ex & Ea & Na). cbv zeta in Na. rewrite Ex. cbn [fst snd].
    destruct (So _ _ Ea) as [_ S2]. destruct (S2 Na) as (R & _).
    assert (Ob : obtain_rsa_ca k (Some r) c x =
                 (let* root := get_root r in
                  match verify_rsa_with_root k a root with
                  | (Ok _, ca') => Ok ca' | (Err e, _) => Err e | (Panic, _) => Panic end)).
    { unfold obtain_rsa_ca. rewrite Ea. cbn [bind odflt]. now rewrite Na. }
    destruct (get_root r) as [root|e|] eqn:Er; cbn [bind] in Ob.
    + pose proof (with_root_raw (unmarked (h (rsa_car x))) a root) as W. cbn [rsa_raw unmarked] in W.
      destruct (W R) as [W1 W2]. clear W.
      destruct (verify_rsa_with_root k (unmarked (h (rsa_car x))) root) as [[u|e|] b] eqn:V;
        destruct (verify_rsa_with_root k a root) as [o2 b2] eqn:V2; cbn [fst snd] in W1, W2; subst o2.
      * destruct u. specialize (W2 eq_refl). subst b2. cbn [fst snd]. apply Still. cbn [on_track].
        split; [exact D|]. exists x, a. split; [exact Ex|]. split; [exact Ea|]. split; [exact Na|]. exists root. auto.
      * cbn [fst snd]. apply Still. destruct (rsa_valid b).
        -- cbn [on_track]. split; [exact D|]. exists x, a. split; [exact Ex|]. split; [exact Ea|]. split; [exact Na|]. eauto.
        -- cbn [on_track]. unfold verify_driver_card, verify_gen1. now rewrite D, Ex, Ob.
      * cbn [fst snd]. apply Still. cbn [on_track]. unfold verify_driver_card, verify_gen1. now rewrite D, Ex, Ob.
    + cbn [fst snd]. apply Still. cbn [on_track]. unfold verify_driver_card, verify_gen1. now rewrite D, Ex, Ob.
    + cbn [fst snd]. apply Still. cbn [on_track]. unfold verify_driver_card, verify_gen1. now rewrite D, Ex, Ob.
  - (* Mark_invalid *)
    destruct T as (D & x & a & Ex & Ea & Na & root & b & Er & V). rewrite Ex. cbn [fst snd].
    destruct (write_sound h (rsa_car x) a (rsa_mark (h (rsa_car x)) false) So Ea Na eq_refl) as [W1 W2].
    { right. cbn. auto. }
    split; [exact W1|]. split; [exact W2|]. cbn [on_track].
    unfold verify_driver_card, verify_gen1. rewrite D, Ex. unfold obtain_rsa_ca. rewrite Ea. cbn [bind odflt].
    rewrite Na. cbn [length Nat.eqb orb]. rewrite Er. cbn [bind]. now rewrite V.
  - (* Set_valid *)
    destruct T as (D & x & a & Ex & Ea & Na & V). rewrite Ex. cbn [fst snd].
    destruct (write_sound h (rsa_car x) a (rsa_mark (h (rsa_car x)) true) So Ea Na eq_refl) as [W1 W2].
    { right. cbn. auto. }
    split; [exact W1|]. split; [exact W2|]. cbn [on_track]. split; [exact D|]. exists x, a. auto.
  - (* Set_chr *)
    destruct T as (D & x & a & Ex & Ea & Na & V). rewrite Ex. cbn [fst snd].
    match goal with |- sound (write h _ ?b) /\ _ => destruct (write_sound h (rsa_car x) a b So Ea Na eq_refl) as [W1 W2] end.
    { left. exists new. cbn. auto. }
    split; [exact W1|]. split; [exact W2|]. cbn [on_track]. split; [exact D|]. exists x, a.
    cbv zeta. rewrite write_here. cbn [rsa_chr]. auto.
  - (* Set_car *)
    destruct T as (D & x & a & Ex & Ea & Na & V & Hc). rewrite Ex. cbn [fst snd].
    match goal with |- sound (write h _ ?b) /\ _ => destruct (write_sound h (rsa_car x) a b So Ea Na eq_refl) as [W1 W2] end.
    { right. cbn. auto. }
    split; [exact W1|]. split; [exact W2|]. cbn [on_track]. split; [exact D|]. exists x, a.
    cbv zeta. rewrite write_here. cbn [rsa_chr]. auto.
  - (* Set_eov *)
    destruct T as (D & x & a & Ex & Ea & Na & V & Hc). rewrite Ex. cbn [fst snd].
    match goal with |- sound (write h _ ?b) /\ _ => destruct (write_sound h (rsa_car x) a b So Ea Na eq_refl) as [W1 W2] end.
    { right. cbn. auto. }
    split; [exact W1|]. split; [exact W2|]. cbn [on_track]. split; [exact D|]. exists x, a.
    cbv zeta. rewrite write_here. cbn [rsa_chr]. auto.
  - (* Set_modulus *)
    destruct T as (D & x & a & Ex & Ea & Na & V & Hc). rewrite Ex. cbn [fst snd].
    match goal with |- sound (write h _ ?b) /\ _ => destruct (write_sound h (rsa_car x) a b So Ea Na eq_refl) as [W1 W2] end.
    { left. exists new. cbn. auto 8. }
    split; [exact W1|]. split; [exact W2|]. cbn [on_track]. split; [exact D|]. exists x, a.
    cbv zeta. rewrite write_here. cbn [rsa_chr rsa_n]. auto 10.
  - (* Set_exponent *)
    destruct T as (D & x & a & Ex & Ea & Na & V & Hc & Hn). rewrite Ex. cbn [fst snd].
    match goal with |- sound (write h _ ?b) /\ _ => destruct (write_sound h (rsa_car x) a b So Ea Na eq_refl) as [W1 W2] end.
    { left. exists new. cbn. auto 8. }
    split; [exact W1|]. split; [exact W2|]. cbn [on_track]. split; [exact D|]. exists x, a.
    cbv zeta. split; [exact Ex|]. split; [exact Ea|]. exists new. split; [right; auto|]. unfold full. rewrite write_here.
    cbn [rsa_chr rsa_n rsa_e]. auto 10.
  - (* Get_modulus *)
    destruct T as (D & x & a & Ex & Ea & f & A & F1). rewrite Ex. cbn [fst snd]. apply Still. cbn [on_track].
    split; [exact D|]. exists x, a. split; [exact Ex|]. split; [exact Ea|]. exists f. destruct F1 as (Q1 & Q2 & Q3). unfold full. auto.
  - (* Get_exponent *)
    destruct T as (D & x & a & Ex & Ea & f & A & F1 & Hn). rewrite Ex. cbn [fst snd]. apply Still. cbn [on_track].
    split; [exact D|]. exists x, a. split; [exact Ex|]. split; [exact Ea|]. exists f. destruct F1 as (Q1 & Q2 & Q3). unfold full. auto.
  - (* Get_chr *)
    destruct T as (D & x & a & Ex & Ea & f & A & (Q1 & Q2 & Q3) & Hn & He). rewrite Ex. rewrite Q3, Hn, He.
    pose proof (obtain_authority c x a f Ea Wk A) as Ob.
    destruct (verify_rsa k x (rsa_n f) (rsa_e f) (rsa_chr f)) as [o x'] eqn:V. cbn [fst snd].
    destruct (finish_done o (store_rsa c x')) as (o' & c' & -> & E). apply Still. cbn [on_track]. rewrite E.
    unfold verify_driver_card, verify_gen1. rewrite D, Ex, Ob. cbn [verify_rsa_with_ca]. now rewrite V.
  - (* Done *)
    apply Still. exact T.
Qed.

(** ** Steps left *)

Definition rank (p : next) : nat :=
  match p with
  | Fetch => 13 | Check_modulus => 12 | Check_exponent => 11 | Recover => 10 | Mark_invalid _ => 1
  | Set_valid _ => 9 | Set_chr _ => 8 | Set_car _ => 7 | Set_eov _ => 6 | Set_modulus _ => 5 | Set_exponent _ => 4
  | Get_modulus => 3 | Get_exponent _ => 2 | Get_chr _ _ => 1 | Done _ _ => 0
  end%nat.

Lemma finish_rank o c : rank (finish k r o c) = 0%nat.
Proof. destruct (finish_done o c) as (o' & c' & -> & _). reflexivity. Qed.

Lemma advance_rank h c p : on_track h c p -> (rank (snd (advance k r c h p)) <= pred (rank p))%nat.
Proof.
  intros T. destruct p; cbn [advance];
    try (destruct T as (D & x & a & Ex & Ea & T); rewrite Ex); cbn [snd rank pred]; try lia.
  - destruct (dc_has c Gen1); [|cbn [snd]; rewrite finish_rank; lia].
    destruct (card_certificate c); [|cbn; lia]. destruct (get_rsa r (rsa_car r0)) as [[?|]|?|]; cbn; lia.
  - destruct (_ =? _)%nat; cbn [rank]; lia.
  - destruct (_ =? _)%nat; cbn [rank]; lia.
  - destruct (get_root r) as [root|e|]; cbn [snd rank]; try lia.
    destruct (verify_rsa_with_root k (unmarked (h (rsa_car x))) root) as [[u|e|] b]; cbn [snd rank]; try lia.
    destruct (rsa_valid b); cbn [rank]; lia.
  - destruct (verify_rsa k x n e (rsa_chr (h (rsa_car x)))) as [o x']. cbn [snd]. rewrite finish_rank. lia.
Qed.

(** ** Any order of turns *)

Lemma update_length {X} (l : list X) i x : length (update l i x) = length l.
Proof. revert i. induction l as [|y l IH]; intros [|i]; cbn; auto. Qed.

Lemma update_nth {X} (l : list X) i j x : nth_error (update l i x) j =
  if Nat.eq_dec i j then (match nth_error l j with Some _ => Some x | None => None end) else nth_error l j.
Proof.
  revert i j. induction l as [|y l IH]; intros i j.
  - destruct i, j; cbn [update nth_error]; destruct (Nat.eq_dec _ _); reflexivity.
  - destruct i as [|i], j as [|j]; cbn [update nth_error]; try reflexivity.
    rewrite IH. destruct (Nat.eq_dec i j), (Nat.eq_dec (S i) (S j)); congruence.
Qed.

Definition all_on_track (s : heap * pool) : Prop :=
  sound (fst s) /\ forall i c p, nth_error (snd s) i = Some (c, p) -> on_track (fst s) c p.

Lemma step_keeps s i : whole_keys -> all_on_track s -> all_on_track (schedule_step k r s i) /\
  forall j c p, nth_error (snd s) j = Some (c, p) -> exists p', nth_error (snd (schedule_step k r s i)) j = Some (c, p') /\
    (rank p' <= rank p - (if Nat.eq_dec i j then 1 else 0))%nat.
Proof.
  intros Wk [So T]. destruct s as [h ps]. cbn [fst snd] in *. unfold schedule_step.
  destruct (nth_error ps i) as [[c p]|] eqn:E.
  - destruct (advance_keeps h c p Wk So (T _ _ _ E)) as (S' & G & T').
    pose proof (advance_rank h c p (T _ _ _ E)) as R.
    destruct (advance k r c h p) as [h' p']. cbn [fst snd] in *. split.
    + split; [exact S'|]. cbn [fst snd]. intros j c1 p1. rewrite update_nth. destruct (Nat.eq_dec i j) as [<-|N].
      * rewrite E. intros [= <- <-]. exact T'.
      * intros E1. eapply on_track_grows; [exact G|]. eapply T. exact E1.
    + intros j c1 p1 E1. rewrite update_nth. destruct (Nat.eq_dec i j) as [<-|N].
      * rewrite E in *. injection E1 as <- <-. exists p'. split; [reflexivity|lia].
      * exists p1. split; [exact E1|lia].
  - split; [split; assumption|]. cbn [snd]. intros j c1 p1 E1. exists p1. split; [exact E1|].
    destruct (Nat.eq_dec i j) as [<-|N]; [congruence|lia].
Qed.

Lemma run_keeps turns s : whole_keys -> all_on_track s -> all_on_track (run k r s turns) /\
  forall j c p, nth_error (snd s) j = Some (c, p) -> exists p', nth_error (snd (run k r s turns)) j = Some (c, p') /\
    (rank p' <= rank p - count_occ Nat.eq_dec turns j)%nat.
Proof.
  intros Wk. revert s. induction turns as [|i turns IH]; intros s T.
  - split; [exact T|]. intros j c p E. exists p. cbn. split; [exact E|lia].
  - destruct (step_keeps s i Wk T) as [T' R]. destruct (IH _ T') as [T'' R']. split; [exact T''|].
    intros j c p E. destruct (R _ _ _ E) as (p' & E' & L). destruct (R' _ _ _ E') as (p'' & E'' & L').
    exists p''. split; [exact E''|]. cbn [count_occ]. destruct (Nat.eq_dec i j); lia.
Qed.
End Source.

(** The objects of a source at the beginning are what it answers without memory. *)
Definition fresh (r : resolver) (h : heap) : Prop := forall q a, get_rsa r q = Ok (Some a) -> h q = a.

(** ** C105: whatever the order of the steps of the goroutines that verify the
    cards, each one ends with the outcome and the card that verifying that card
    alone, with a source without memory, gives; and each one ends.

    Partial: the source has to give certificates that have both parts of the key, or
    neither. *)
Theorem C105_kept_certificates_partial : forall k r cards h turns, whole_keys r -> fresh r h ->
  forall i c, nth_error cards i = Some c -> exists p,
    nth_error (snd (run k r (h, start cards) turns)) i = Some (c, p) /\
    (forall o c', p = Done o c' -> (o, c') = verify_driver_card k (Some r) c) /\
    ((13 <= count_occ Nat.eq_dec turns i)%nat -> exists o c', p = Done o c').
Proof.
  intros k r cards h turns Wk Fr i c E.
  destruct (run_keeps k r turns (h, start cards) Wk) as [[S' T'] R].
  { split.
    - intros q a Ea. cbn [fst]. rewrite (Fr _ _ Ea). split; [reflexivity|]. intros Na. split; [reflexivity|].
      split; [now left|]. left. destruct (Wk _ _ Ea) as [[_ W]|[W _]]; [exact W|congruence].
    - cbn [fst snd]. unfold start. intros j c1 p1 E1. apply nth_error_In in E1. apply in_map_iff in E1 as (c2 & [= <- <-] & _). exact I. }
  destruct (R i c Fetch) as (p & Ep & L).
  { cbn [snd]. unfold start. now rewrite nth_error_map, E. }
  exists p. split; [exact Ep|]. split.
  - intros o c' ->. apply (T' _ _ _ Ep).
  - intros C. cbn [rank] in L. destruct p; cbn [rank] in L; try lia. eauto.
Qed.
Print Assumptions C105_kept_certificates_partial.

(** ** The sources of the package give certificates without a key. *)

Lemma first_success_in {A} (l : list (res A)) x : first_success l = Ok x -> In (Ok x) l.
Proof.
  induction l as [|y l IH]; cbn; [discriminate|]. destruct y; intros E; try discriminate; auto.
Qed.

Lemma some_rsa d a : some_res (unmarshal_rsa d) = Ok (Some a) -> rsa_n a = [] /\ rsa_e a = [].
Proof.
  unfold some_res, unmarshal_rsa. destruct (guard _); cbn [bind]; try discriminate. intros [= <-]. split; reflexivity.
Qed.

Lemma default_whole fs http ix : whole_keys (default_resolver fs http ix).
Proof.
  intros q a E. left. apply first_success_in in E. cbn in E. destruct E as [E|[E|[]]].
  - destruct (read_g1 fs q); [|discriminate]. eapply some_rsa. exact E.
  - destruct (url_of (ix_g1 ix) q) as [u|]; [|discriminate]. destruct (http u); cbn [bind] in E; try discriminate. eapply some_rsa. exact E.
Qed.

(** A cache in front of [DefaultCertificateResolver] *)
Theorem C105_default_source : forall k fs http ix cards h turns, fresh (default_resolver fs http ix) h ->
  forall i c, nth_error cards i = Some c -> exists p,
    nth_error (snd (run k (default_resolver fs http ix) (h, start cards) turns)) i = Some (c, p) /\
    (forall o c', p = Done o c' -> (o, c') = verify_driver_card k (Some (default_resolver fs http ix)) c) /\
    ((13 <= count_occ Nat.eq_dec turns i)%nat -> exists o c', p = Done o c').
Proof. intros. apply C105_kept_certificates_partial; auto. apply default_whole. Qed.
Print Assumptions C105_default_source.

(** The condition is needed: with a certificate that has an exponent and no modulus
    one goroutine reads the new modulus with the old exponent, and rejects a card
    that alone verifies. *)
Definition half_ca : rsa_cert := mkRsa [] (dec 1) None [] (to_be 8 2) (gen1_certificate 1 7 [255; 255; 255; 255]) None.
Definition half_source : resolver :=
  mkResolver (get_root (toy_resolver toy_root)) (fun _ => Ok (Some half_ca)) (get_ecc (toy_resolver toy_root)).

Theorem C105_kept_certificates_refuted : exists k r h cards turns i c c', fresh r h /\
  nth_error cards i = Some c /\ fst (verify_driver_card k (Some r) c) = Ok tt /\
  nth_error (snd (run k r (h, start cards) turns)) i = Some (c, Done fail c').
Proof.
  assert (B : match unmarshal_file no_charmap (dump (toy_dump [0; 0; 0; 1] [0; 0; 0; 1] 1)) with
              | Ok (mkFile 2 None (Some c) None) =>
                  is_ok (fst (verify_driver_card toy (Some half_source) c)) &&
                  match nth_error (snd (run toy half_source ((fun _ => half_ca), start [c; c])
                                            [0; 0; 0; 0; 0; 0; 0; 0; 1; 1; 1; 1; 1; 1]%nat)) 1 with
                  | Some (_, Done (Err EOther) _) => true
                  | _ => false
                  end
              | _ => false end = true) by (vm_compute; reflexivity).
  destruct (unmarshal_file no_charmap (dump (toy_dump [0; 0; 0; 1] [0; 0; 0; 1] 1))) as [[t v o w]|?|]; try discriminate.
  destruct t as [|[?|[?|?|]|]|?]; try discriminate. destruct v; try discriminate. destruct o as [c|]; try discriminate.
  destruct w; try discriminate. apply andb_true_iff in B as [B1 B2].
  destruct (nth_error (snd (run toy half_source ((fun _ => half_ca), start [c; c])
     [0; 0; 0; 0; 0; 0; 0; 0; 1; 1; 1; 1; 1; 1]%nat)) 1) as [[c1 p]|] eqn:E; [|discriminate].
  destruct p as [| | | | | | | | | | | | | |o c']; try discriminate. destruct o as [|[]|]; try discriminate.
  exists toy, half_source, (fun _ => half_ca), [c; c], [0; 0; 0; 0; 0; 0; 0; 0; 1; 1; 1; 1; 1; 1]%nat, 1%nat, c, c'.
  split; [intros q a [= <-]; reflexivity|]. split; [reflexivity|]. split.
  - destruct (fst (verify_driver_card toy (Some half_source) c)) as [[]|?|]; [reflexivity|discriminate..].
  - transitivity (Some (c1, Done fail c')); [exact E|]. enough (c1 = c) by congruence. revert E. clear. intros E.
    (* the pool keeps its cards *)
    assert (P : forall turns s, (forall c1 p, In (c1, p) (snd s) -> c1 = c) ->
                forall c1 p, In (c1, p) (snd (run toy half_source s turns)) -> c1 = c).
    { induction turns as [|i turns IH]; intros s Hs; [exact Hs|]. cbn [run fold_left]. apply IH.
      destruct s as [h ps]. unfold schedule_step. destruct (nth_error ps i) as [[c2 p2]|] eqn:N; [|exact Hs].
      destruct (advance toy half_source c2 h p2) as [h' p']. cbn [snd] in *. intros c3 p3 H3.
      apply In_nth_error in H3 as (j & H3). rewrite update_nth in H3. destruct (Nat.eq_dec i j).
      - destruct (nth_error ps j); [|discriminate]. injection H3 as <- <-. eapply Hs. eapply nth_error_In. exact N.
      - eapply Hs. eapply nth_error_In. exact H3. }
    eapply P; [|eapply nth_error_In; exact E]. cbn. intros c2 p2 [H|[H|[]]]; congruence.
Qed.
Print Assumptions C105_kept_certificates_refuted.

(** Two goroutines, a cache in front of the sources of the package, alternating
    turns: both write the certificate of the authority, and both accept. *)
Example C105_example : exists us c, Forall dumped_ok us /\ accepted no_charmap us c /\
  fresh (toy_resolver toy_root) (fun q => match get_rsa (toy_resolver toy_root) q with Ok (Some a) => a | _ => half_ca end) /\
  fst (verify_driver_card toy (Some (toy_resolver toy_root)) c) = Ok tt /\
  dc_has c Gen1 = true /\ (13 <= count_occ Nat.eq_dec (concat (repeat [0; 1]%nat 13)) 1)%nat.
Proof.
  destruct toy_verified as (c & (V & A & O) & H). apply andb_true_iff in H as [H _].
  eexists. exists c. split; [exact V|]. split; [exact A|]. split.
  - intros q a E. cbv beta. now rewrite E.
  - rewrite verify_driver_file in O. split; [exact O|]. split; [exact H|]. vm_compute. lia.
Qed.
