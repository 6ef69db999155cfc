(** C129: which cards are written as the same bytes. *)

From Verif Require Import Base Enums DDScalar RawTypes RawCard P_RawCard Cert DriverCard P_Driver Vu Verify Api P_Dump Props_Dump Props_Driver.
From Verif Require Import Chunks P_Write P_WriteAll Props_Write.

(** [v] is written for field [s] of the card.  Empty certificates are not. *)
Definition puts (c : driver_card) (s : slot) (v : bytes) : Prop :=
  exists x sg, slot_of_card c s = Some (x, sg) /\ append_content s x = Ok v /\
    (In s [S_card_cert; S_ca_cert; S2_ma_cert; S2_sign_cert; S2_ca_cert; S2_link_cert] -> v <> []).

(** File identifier and appendix. *)
Definition head (e : Z * Z * bool) : bytes := match e with (f, a, _) => [f / 256; f mod 256; a] end.

Lemma heads_nodup : NoDup (map (fun p => head (shape_of p)) marshal_order).
Proof.
  apply (NoDup_count_occ' (list_eq_dec Z.eq_dec)). intros s I.
  repeat destruct I as [<-|I]; try reflexivity. destruct I.
Qed.

Lemma dump_written e v : dump [written e v] =
  head e ++ [Z.of_nat (length v) / 256; Z.of_nat (length v) mod 256] ++ v ++
  match e with (f, a, g) => if g then enc (mkTlv f (a + 1) (zeros 128)) else [] end.
Proof.
  destruct e as [[f a] g]. rewrite dump_one. unfold written, u_tlvs. cbn [u_sig u_fid u_app u_val].
  destruct g; cbn [map concat]; unfold enc at 1; cbn [t_fid t_app t_val]; rewrite <- ?app_assoc, ?app_nil_r; reflexivity.
Qed.

Lemma dump_written_head e v r : firstn 3 (dump [written e v] ++ r) = head e.
Proof. rewrite dump_written. destruct e as [[f a] g]. reflexivity. Qed.

Lemma dump_written_inj e v v' r r' : dump [written e v] ++ r = dump [written e v'] ++ r' -> v = v' /\ r = r'.
Proof.
  rewrite !dump_written, <- !app_assoc. intros E. apply app_inv_head in E. cbn [List.app] in E. injection E as E1 E2 E.
  assert (L : length v = length v') by lia.
  apply app_eq_app in E as (l & [[Q1 Q2]|[Q1 Q2]]).
  - assert (l = []) by (apply (f_equal (@length Z)) in Q1; rewrite app_length in Q1; destruct l; auto; cbn [length] in Q1; lia).
    subst l. rewrite app_nil_r in Q1. split; [exact Q1|]. cbn [List.app] in Q2. destruct e as [[f a] g]. now apply app_inv_head in Q2.
  - assert (l = []) by (apply (f_equal (@length Z)) in Q1; rewrite app_length in Q1; destruct l; auto; cbn [length] in Q1; lia).
    subst l. rewrite app_nil_r in Q1. split; [now symmetry|]. cbn [List.app] in Q2. destruct e as [[f a] g]. symmetry in Q2. now apply app_inv_head in Q2.
Qed.

Lemma certificates p : In p marshal_order ->
  (is_certificate (snd p) = true <-> In (fst p) [S_card_cert; S_ca_cert; S2_ma_cert; S2_sign_cert; S2_ca_cert; S2_link_cert]).
Proof.
  intros J. repeat destruct J as [<-|J]; try (cbn; intuition discriminate). destruct J.
Qed.

(** What is written of one field. *)
Lemma write_slot_puts c p out : In p marshal_order -> short_fields c -> write_slot c p = Ok out ->
  (out = [] /\ forall v, ~ puts c (fst p) v) \/
  (exists v, out = dump [written (shape_of p) v] /\ puts c (fst p) v).
Proof.
  intros J SH W. destruct (write_slot_cases c p out J SH W) as [(-> & N)|(u & -> & (x & sg & X & A & U) & NE)].
  - left. split; [reflexivity|]. intros v (x & sg & X & A & NC). destruct N as [N|(K & y & sy & Y & B)]; [congruence|].
    rewrite X in Y. injection Y as <- <-. rewrite A in B. apply Ok_inj in B. apply NC; [now apply certificates|exact B].
  - right. exists (u_val u). split; [now rewrite <- U|]. exists x, sg. split; auto. split; auto.
    intros I. apply NE. now apply certificates.
Qed.

Lemma puts_unique c s v v' : puts c s v -> puts c s v' -> v = v'.
Proof.
  intros (x & sg & X & A & _) (y & sy & Y & B & _). rewrite X in Y. injection Y as <- <-. rewrite A in B. now apply Ok_inj in B.
Qed.

(** The rest of a written card begins with the head of one of the remaining fields. *)
Lemma rest_head c l : incl l marshal_order -> short_fields c -> forall out, concat_res (write_slot c) l = Ok out ->
  out = [] \/ exists p, In p l /\ firstn 3 out = head (shape_of p).
Proof.
  intros IN SH. induction l as [|p l IH]; intros out W; cbn [concat_res] in W.
  - apply Ok_inj in W. auto.
  - apply bind_ok in W as (a & Wp & W). apply bind_ok in W as (b & Wl & W). apply Ok_inj in W. subst out.
    destruct (write_slot_puts c p a) as [[-> _]|(v & -> & _)]; auto; [apply IN; now left| |].
    + destruct (IH (fun q Q => IN q (or_intror Q)) b Wl) as [->|(q & J & H)]; [now left|]. right. exists q. split; [now right|exact H].
    + right. exists p. split; [now left|apply dump_written_head].
Qed.

Lemma same_parts c c' l : incl l marshal_order -> NoDup (map (fun p => head (shape_of p)) l) -> short_fields c -> short_fields c' ->
  forall out, concat_res (write_slot c) l = Ok out -> concat_res (write_slot c') l = Ok out ->
  forall p, In p l -> forall v, puts c (fst p) v <-> puts c' (fst p) v.
Proof.
  intros IN ND SH SH'. induction l as [|p l IH]; intros out W W' q J v; [destruct J|]. cbn [concat_res] in W, W'.
  assert (IN' : incl l marshal_order) by (intros q' Q; apply IN; now right).
  cbn [map] in ND. apply NoDup_cons_iff in ND as [N1 N2].
  apply bind_ok in W as (a & Wp & W). apply bind_ok in W as (b & Wl & W). apply Ok_inj in W. subst out.
  apply bind_ok in W' as (a' & Wp' & W'). apply bind_ok in W' as (b' & Wl' & W'). apply Ok_inj in W'.
  assert (Jp : In p marshal_order) by (apply IN; now left).
  assert (NH : forall d, d = [] \/ (exists p, In p l /\ firstn 3 d = head (shape_of p)) -> forall v r, d <> dump [written (shape_of p) v] ++ r).
  { intros d H w r E. rewrite E in H. destruct H as [H|(p' & J' & H)].
    - rewrite dump_written in H. destruct (shape_of p) as [[f x] g]. discriminate H.
    - rewrite dump_written_head in H. apply N1. rewrite H. now apply (in_map (fun p => head (shape_of p))). }
  destruct (write_slot_puts c p a Jp SH Wp) as [[-> NP]|(w & -> & P)];
  destruct (write_slot_puts c' p a' Jp SH' Wp') as [[-> NP']|(w' & -> & P')]; cbn [List.app] in W'.
  - destruct J as [<-|J]; [|subst b'; now apply (IH IN' N2 b Wl Wl')]. split; intros Q; [destruct (NP v Q)|destruct (NP' v Q)].
  - destruct (NH b (rest_head c l IN' SH b Wl) w' b'). now symmetry.
  - destruct (NH b' (rest_head c' l IN' SH' b' Wl') w b). exact W'.
  - apply dump_written_inj in W' as [-> ->]. destruct J as [<-|J]; [|now apply (IH IN' N2 b Wl Wl')].
    split; intros Q; [now rewrite (puts_unique c _ _ _ Q P)|now rewrite (puts_unique c' _ _ _ Q P')].
Qed.

Lemma same_written c c' l : short_fields c -> short_fields c' -> incl l marshal_order ->
  (forall p, In p l -> forall v, puts c (fst p) v <-> puts c' (fst p) v) ->
  forall out out', concat_res (write_slot c) l = Ok out -> concat_res (write_slot c') l = Ok out' -> out = out'.
Proof.
  intros SH SH' IN H. induction l as [|p l IH]; intros out out' W W'; cbn [concat_res] in W, W'.
  - apply Ok_inj in W, W'. congruence.
  - apply bind_ok in W as (a & Wp & W). apply bind_ok in W as (b & Wl & W). apply Ok_inj in W. subst out.
    apply bind_ok in W' as (a' & Wp' & W'). apply bind_ok in W' as (b' & Wl' & W'). apply Ok_inj in W'. subst out'.
    assert (Jp : In p marshal_order) by (apply IN; now left).
    rewrite (IH (fun q Q => IN q (or_intror Q)) (fun q Q => H q (or_intror Q)) b b' Wl Wl'). f_equal.
    pose proof (H p (or_introl eq_refl)) as Hp.
    destruct (write_slot_puts c p a Jp SH Wp) as [[-> NP]|(w & -> & P)];
    destruct (write_slot_puts c' p a' Jp SH' Wp') as [[-> NP']|(w' & -> & P')]; auto.
    + apply Hp in P'. destruct (NP w' P').
    + apply Hp in P. destruct (NP' w P).
    + apply Hp in P. now rewrite (puts_unique c' _ _ _ P P').
Qed.

(** C129.  Two cards, parsed or put together by a program, none of whose files exceeds
    65535 bytes, are written as the same bytes exactly if the same is written of every
    field.  Missing from the full statement: longer files (C129_unambiguous_refuted). *)
Theorem C129_unambiguous_partial : forall c c' out out', short_fields c -> short_fields c' ->
  marshal_file (Some (driver_file c)) = Ok out -> marshal_file (Some (driver_file c')) = Ok out' ->
  (out = out' <-> forall s k, In (s, k) marshal_order -> forall v, puts c s v <-> puts c' s v).
Proof.
  intros c c' out out' SH SH' M M'. rewrite marshal_driver_file in M, M'. split.
  - intros <- s k J v. exact (same_parts c c' marshal_order (incl_refl _) heads_nodup SH SH' out M M' (s, k) J v).
  - intros H. apply (same_written c c' marshal_order SH SH' (incl_refl _)); auto. intros [s k] J v. exact (H s k J v).
Qed.
Print Assumptions C129_unambiguous_partial.

(** Parsed cards are such. *)
Theorem C129_parsed : forall cm us us' c c' out out', Forall dumped_ok us -> Forall dumped_ok us' ->
  accepted cm us c -> accepted cm us' c' ->
  marshal_file (Some (driver_file c)) = Ok out -> marshal_file (Some (driver_file c')) = Ok out' ->
  (out = out' <-> forall s k, In (s, k) marshal_order -> forall v, puts c s v <-> puts c' s v).
Proof.
  intros cm us us' c c' out out' V V' A A'.
  apply accepted_iff in A as (os & _ & _ & G & ->); auto. apply accepted_iff in A' as (ps & _ & _ & G' & ->); auto.
  apply C129_unambiguous_partial; [now apply (parsed_short cm us)|now apply (parsed_short cm us')].
Qed.
Print Assumptions C129_parsed.

(** A certificate of 65537 bytes is written as one of one byte, and the bytes behind
    that as the certificate of the authority. *)
Definition just (raw : bytes) : rsa_cert := mkRsa [] [] None [] [] raw None.
Definition long_card : driver_card :=
  set_slot empty_card S_card_cert (just ([7; 0xC1; 0x08; 0; 0xFF; 0xFB] ++ zeros (Z.to_nat 65531)), None).
Definition two_certificates : driver_card :=
  set_slot (set_slot empty_card S_card_cert (just [7], None)) S_ca_cert (just (zeros (Z.to_nat 65531)), None).

Theorem C129_unambiguous_refuted : exists c c' out,
  marshal_file (Some (driver_file c)) = Ok out /\ marshal_file (Some (driver_file c')) = Ok out /\
  short_fields c' /\ slot_of_card c S_ca_cert = None /\ puts c' S_ca_cert (zeros (Z.to_nat 65531)).
Proof.
  exists long_card, two_certificates.
  assert (H : match marshal_file (Some (driver_file long_card)), marshal_file (Some (driver_file two_certificates)) with
    | Ok a, Ok b => if list_eq_dec Z.eq_dec a b then true else false | _, _ => false end = true) by (vm_cast_no_check (eq_refl true)).
  destruct (marshal_file (Some (driver_file long_card))) as [a|?|] eqn:E; try discriminate H.
  destruct (marshal_file (Some (driver_file two_certificates))) as [b|?|] eqn:E'; try discriminate H.
  destruct (list_eq_dec Z.eq_dec a b) as [Q|Q]; [|discriminate H]. subst b. exists a. split; [reflexivity|]. split; [reflexivity|].
  split; [|split; [reflexivity|]].
  - intros s k x sg v J X A. clear H E E'.
    assert (C : forall s, slot_of_card two_certificates s <> None -> s = S_card_cert \/ s = S_ca_cert).
    { intros t N. destruct t; auto; destruct N; reflexivity. }
    destruct (C s) as [-> | ->]; [congruence| |]; cbn [append_content] in A; apply Ok_inj in A; subst v.
    + change (Some (just [7], None) = Some (x, sg)) in X. injection X as <- _. cbn [just rsa_raw length]. lia.
    + change (Some (just (zeros (Z.to_nat 65531)), None) = Some (x, sg)) in X. injection X as <- _. cbn [just rsa_raw].
      rewrite zeros_length. lia.
  - exists (just (zeros (Z.to_nat 65531))), None. split; [reflexivity|]. split; [reflexivity|]. intros _ Z0.
    apply (f_equal (@length Z)) in Z0. rewrite zeros_length in Z0. cbn [length] in Z0. lia.
Qed.
Print Assumptions C129_unambiguous_refuted.

(** Two dumps in different order and with different signatures that are written as the
    same bytes, and one that is not. *)
Example C129_example : exists us us' us'' c c' c'' out out' out'',
  Forall dumped_ok us /\ Forall dumped_ok us' /\ Forall dumped_ok us'' /\
  accepted no_charmap us c /\ accepted no_charmap us' c' /\ accepted no_charmap us'' c'' /\
  marshal_file (Some (driver_file c)) = Ok out /\ marshal_file (Some (driver_file c')) = Ok out' /\
  marshal_file (Some (driver_file c'')) = Ok out'' /\
  us <> us' /\ out = out' /\ out <> out''.
Proof.
  set (u n s := mkDumped 0x0501 0 (repeat n 10) (Some (1, repeat s 128))).
  set (us := [icc_unit; ic_unit; u 0 7]). set (us' := [icc_unit; u 0 8; ic_unit]). set (us'' := [icc_unit; ic_unit; u 1 7]).
  destruct (marshal_result us) as (V & c & out & A & M); [vm_compute; reflexivity|vm_compute; reflexivity|].
  destruct (marshal_result us') as (V' & c' & out' & A' & M'); [vm_compute; reflexivity|vm_compute; reflexivity|].
  destruct (marshal_result us'') as (V'' & c'' & out'' & A'' & M''); [vm_compute; reflexivity|vm_compute; reflexivity|].
  exists us, us', us'', c, c', c'', out, out', out''.
  do 3 (split; [assumption|]). do 3 (split; [assumption|]). do 3 (split; [assumption|]). split; [discriminate|].
  assert (R : forall ws d o, unmarshal_file no_charmap (dump ws) = Ok (driver_file d) -> marshal_file (Some (driver_file d)) = Ok o ->
    match unmarshal_file no_charmap (dump ws) with Ok f => marshal_file (Some f) | _ => Ok [] end = Ok o).
  { intros ws d o E1 E2. rewrite E1. exact E2. }
  apply (R us) in M; [|exact A]. apply (R us') in M'; [|exact A']. apply (R us'') in M''; [|exact A'']. clear R A A' A'' V V' V''.
  split.
  - assert (Ok out = Ok out') by (rewrite <- M, <- M'; vm_compute; reflexivity). congruence.
  - intros Q. assert (H : Ok out = Ok out'') by congruence. rewrite <- M, <- M'' in H. vm_compute in H. discriminate H.
Qed.
