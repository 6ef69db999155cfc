(** C131: another source of certificates. *)

From Verif Require Import Base Enums Chunks DDScalar RawTypes RawCard Infer Cert P_Cert DriverCard P_Driver Vu Verify Api P_Dump.
From Verif Require Import Props_RawCard Props_Dump Props_Driver Props_Cert Props_Verify.

(** What [r] answers, [r'] answers too. *)
Definition answers_more (r r' : resolver) : Prop := forall q a, ask r q = Ok a -> ask r' q = Ok a.

Lemma more_root r r' : answers_more r r' -> forall a, get_root r = Ok a -> get_root r' = Ok a.
Proof.
  intros M a E. specialize (M Root (ARoot a)). cbn [ask] in M. rewrite E in M. specialize (M eq_refl).
  destruct (get_root r'); try discriminate M. cbn in M. injection M as ->. reflexivity.
Qed.
Lemma more_rsa r r' : answers_more r r' -> forall q a, get_rsa r q = Ok a -> get_rsa r' q = Ok a.
Proof.
  intros M q a E. specialize (M (Rsa q) (ARsa a)). cbn [ask] in M. rewrite E in M. specialize (M eq_refl).
  destruct (get_rsa r' q); try discriminate M. cbn in M. injection M as ->. reflexivity.
Qed.
Lemma more_ecc r r' : answers_more r r' -> forall q a, get_ecc r q = Ok a -> get_ecc r' q = Ok a.
Proof.
  intros M q a E. specialize (M (Ecc q) (AEcc a)). cbn [ask] in M. rewrite E in M. specialize (M eq_refl).
  destruct (get_ecc r' q); try discriminate M. cbn in M. injection M as ->. reflexivity.
Qed.

Lemma more_obtain k r r' c x ca : answers_more r r' -> obtain_rsa_ca k (Some r) c x = Ok ca -> obtain_rsa_ca k (Some r') c x = Ok ca.
Proof.
  intros M. unfold obtain_rsa_ca. intros E. apply bind_ok in E as (o & O & E). rewrite (more_rsa r r' M _ _ O). cbn [bind]. cbv zeta in *.
  destruct ((length (rsa_n (odflt (mkRsa [] [] None [] [] [] None) o)) =? 0)%nat || (length (rsa_e (odflt (mkRsa [] [] None [] [] [] None) o)) =? 0)%nat); [|exact E].
  apply bind_ok in E as (root & R & E). rewrite (more_root r r' M _ R). cbn [bind]. exact E.
Qed.

Lemma more_gen1 k r r' c c' : answers_more r r' -> verify_gen1 k (Some r) c = (Ok tt, c') -> verify_gen1 k (Some r') c = (Ok tt, c').
Proof.
  intros M. unfold verify_gen1. destruct (card_certificate c) as [x|]; [|discriminate].
  destruct (obtain_rsa_ca k (Some r) c x) as [ca|?|] eqn:O; try discriminate. now rewrite (more_obtain k r r' c x ca M O).
Qed.

Lemma more_gen2 k r r' c c' : answers_more r r' -> verify_gen2 k (Some r) c = (Ok tt, c') -> verify_gen2 k (Some r') c = (Ok tt, c').
Proof.
  intros M. unfold verify_gen2. destruct (card_sign_certificate c) as [x|]; [|discriminate]. cbn [obtain_ecc_ca].
  destruct (get_ecc r (ecc_car x)) as [ca|?|] eqn:O; try discriminate. now rewrite (more_ecc r r' M _ _ O).
Qed.

Lemma more_card k r r' c c' : answers_more r r' -> verify_driver_card k (Some r) c = (Ok tt, c') -> verify_driver_card k (Some r') c = (Ok tt, c').
Proof.
  intros M. unfold verify_driver_card. intros E.
  assert (G : forall c1, (if dc_has c Gen1 then verify_gen1 k (Some r) c else (Ok tt, c)) = (Ok tt, c1) ->
    (if dc_has c Gen1 then verify_gen1 k (Some r') c else (Ok tt, c)) = (Ok tt, c1)).
  { intros c1. destruct (dc_has c Gen1); auto. now apply more_gen1. }
  destruct (if dc_has c Gen1 then verify_gen1 k (Some r) c else (Ok tt, c)) as [[[]|?|] c1]; try discriminate E.
  rewrite (G c1 eq_refl). destruct (dc_has c1 Gen2); [now apply (more_gen2 k r)|exact E].
Qed.

Lemma more_file k r r' f f' : answers_more r r' -> verify_file k r f = (Ok tt, f') -> verify_file k r' f = (Ok tt, f').
Proof.
  intros M. unfold verify_file. destruct f as [f|]; [|discriminate]. destruct (file_type f =? FILE_DRIVER_CARD); [|auto].
  destruct (file_driver_card f) as [c|]; [|discriminate]. intros E.
  destruct (verify_driver_card k (Some r) c) as [o c'] eqn:V. injection E as -> <-. now rewrite (more_card k r r' c c' M V).
Qed.

(** A source [s] that does not contradict [r]: every request either fails there or is
    answered as by [r]. *)
Definition agrees (s r : resolver) : Prop := forall q, fails (ask s q) \/ exists a, ask s q = Ok a /\ ask r q = Ok a.

(** A file that verifies with a chain of sources verifies, with the same result, if
    further sources are put behind; and also if a source that contradicts none of the
    answers is put anywhere.

    Partial: not for sources that are put in front and answer something else. *)
Theorem C131_more_sources_partial :
  (forall k rs more f f', verify_file k (chain rs) f = (Ok tt, f') -> verify_file k (chain (rs ++ more)) f = (Ok tt, f')) /\
  (forall k a s b f f', agrees s (chain (a ++ b)) -> verify_file k (chain (a ++ b)) f = (Ok tt, f') ->
     verify_file k (chain (a ++ s :: b)) f = (Ok tt, f')).
Proof.
  destruct C61_chain as (C1 & C2 & C3 & _). split.
  - intros k rs more f f'. apply more_file. intros q x E. destruct (C2 q rs x E) as (a & r & b & -> & F & R).
    rewrite <- app_assoc. cbn [List.app]. now apply C1.
  - intros k a s b f f' G. apply more_file. intros q x E. destruct (G q) as [Fs|(y & Y & Y')].
    + destruct (C2 q _ x E) as (p & r & t & S0 & F & R).
      apply app_eq_app in S0 as (l & [[S1 S2]|[S1 S2]]).
      * (* r is in a, or the first of b *)
        destruct l as [|r1 l].
        -- cbn in S2. rewrite app_nil_r in S1. subst p b. replace (a ++ s :: r :: t) with ((a ++ [s]) ++ r :: t) by now rewrite <- app_assoc.
           apply C1; [|exact R]. apply Forall_app. split; [exact F|]. constructor; auto.
        -- cbn in S2. injection S2 as <- S2. subst a. rewrite <- app_assoc. cbn [List.app]. now apply C1.
      * subst p b. apply Forall_app in F as [Fa Fl]. replace (a ++ s :: l ++ r :: t) with ((a ++ s :: l) ++ r :: t) by now rewrite <- app_assoc.
        apply C1; [|exact R]. apply Forall_app. split; [exact Fa|]. constructor; auto.
    + rewrite E in Y'. injection Y' as <-.
      (* either something in a answers, the same, or s does *)
      destruct (C2 q _ x E) as (p & r & t & S0 & F & R).
      apply app_eq_app in S0 as (l & [[S1 S2]|[S1 S2]]).
      * destruct l as [|r1 l].
        -- cbn in S2. rewrite app_nil_r in S1. subst p b. now apply C1.
        -- cbn in S2. injection S2 as <- S2. subst a. rewrite <- app_assoc. cbn [List.app]. now apply C1.
      * subst p b. apply Forall_app in F as [Fa Fl]. now apply C1.
Qed.
Print Assumptions C131_more_sources_partial.

(** The toy card with the library's sources, and an empty source that contradicts
    nothing. *)
Example C131_example :
  (exists c f', verify_file toy (chain [toy_resolver toy_root]) (Some (driver_file c)) = (Ok tt, f') /\ dc_has c Gen1 = true) /\
  agrees (chain []) (chain [toy_resolver toy_root]).
Proof.
  split.
  - assert (H : exists c, verified toy (toy_resolver toy_root) (toy_dump [0; 0; 0; 1] [0; 0; 0; 1] 1) c /\
      (dc_has c Gen1 && match fst (verify_file toy (chain [toy_resolver toy_root]) (Some (driver_file c))) with Ok _ => true | _ => false end) = true).
    { apply verified_b_ok. vm_compute. reflexivity. }
    destruct H as (c & _ & H). apply andb_true_iff in H as [H1 H2]. exists c.
    destruct (verify_file toy (chain [toy_resolver toy_root]) (Some (driver_file c))) as [[[]|?|] f']; cbn [fst] in H2; try discriminate H2. eauto.
  - intros q. left. destruct q; exists EOther; reflexivity.
Qed.

(** A source in front that answers with another certificate than the right one. *)
Definition stranger : resolver :=
  mkResolver fail (fun _ => Ok (Some (mkRsa (dec 6) [] None toy_key (to_be 8 1) [] None))) (fun _ => fail).

Theorem C131_more_sources_refuted : exists k rs s us c e, Forall dumped_ok us /\ accepted no_charmap us c /\
  fst (verify_file k (chain rs) (Some (driver_file c))) = Ok tt /\
  fst (verify_file k (chain (s :: rs)) (Some (driver_file c))) = Err e.
Proof.
  assert (H : exists c, verified toy source5 [icc_unit; gen1_unit 5 [255; 255; 255; 255]] c /\
    (match fst (verify_file toy (chain [source5]) (Some (driver_file c))), fst (verify_file toy (chain [stranger; source5]) (Some (driver_file c))) with
     | Ok _, Err _ => true | _, _ => false end) = true).
  { apply verified_b_ok. vm_compute. reflexivity. }
  destruct H as (c & (V & A & O) & H). exists toy, [source5], stranger. eexists. exists c.
  destruct (fst (verify_file toy (chain [source5]) (Some (driver_file c)))) as [[]|?|]; try discriminate H.
  destruct (fst (verify_file toy (chain [stranger; source5]) (Some (driver_file c)))) as [?|e|]; try discriminate H.
  exists e. split; [exact V|]. split; [exact A|]. split; reflexivity.
Qed.
Print Assumptions C131_more_sources_refuted.
