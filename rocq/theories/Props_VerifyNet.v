(** C133: what a verification sends. *)

From Verif Require Import Base Enums Chunks DDScalar RawTypes RawCard Infer Cert P_Cert DriverCard P_Driver Vu Verify Api P_Dump.
From Verif Require Import Props_RawCard Props_Dump Props_Driver Props_Cert Props_Verify VerifyNet.

(** ** With a network that answers a request always the same way, verification is
    what [verify_file] says. *)

Section Steady.
Variables (k : crypto) (files : cert_files) (http : bytes -> res bytes) (ix : cert_index).
Notation net := (fun _ : list bytes => http).

Lemma client_rsa_steady chr sent : fst (client_rsa ix net chr sent) = get_rsa (client http ix) chr.
Proof. unfold client_rsa. cbn [client get_rsa]. destruct (url_of (ix_g1 ix) chr); reflexivity. Qed.
Lemma client_ecc_steady chr sent : fst (client_ecc ix net chr sent) = get_ecc (client http ix) chr.
Proof. unfold client_ecc. cbn [client get_ecc]. destruct (url_of (ix_g2 ix) chr); reflexivity. Qed.

Lemma try_two {A} (a : res A) (p : io (res A)) b sent : fst (p sent) = b -> fst (try_all [still a; p] sent) = first_success [a; b].
Proof.
  intros E. cbn [try_all still first_success]. destruct a as [a|e|]; try reflexivity. destruct (p sent) as [r s]. cbn [fst] in E. subst r.
  destruct b; reflexivity.
Qed.

Lemma gen1_steady c sent : fst (verify_gen1_net k files ix net c sent) = verify_gen1 k (Some (default_resolver files http ix)) c.
Proof.
  unfold verify_gen1_net, verify_gen1. destruct (card_certificate c) as [x|]; [|reflexivity].
  assert (O : fst (obtain_rsa_net k files ix net x sent) = obtain_rsa_ca k (Some (default_resolver files http ix)) c x).
  { unfold obtain_rsa_net, obtain_rsa_ca. unfold default_resolver, chain. cbn [get_rsa get_root map].
    pose proof (try_two (get_rsa (embedded files) (rsa_car x)) (client_rsa ix net (rsa_car x)) _ sent (client_rsa_steady _ sent)) as T.
    destruct (try_all [still (get_rsa (embedded files) (rsa_car x)); client_rsa ix net (rsa_car x)] sent) as [r s]. cbn [fst] in T. subst r.
    destruct (first_success [get_rsa (embedded files) (rsa_car x); get_rsa (client http ix) (rsa_car x)]) as [o|e|]; try reflexivity.
    cbn [bind]. cbv zeta.
    destruct ((length (rsa_n (odflt (mkRsa [] [] None [] [] [] None) o)) =? 0)%nat || (length (rsa_e (odflt (mkRsa [] [] None [] [] [] None) o)) =? 0)%nat); [|reflexivity].
    pose proof (try_two (get_root (embedded files)) (still fail) (get_root (client http ix)) s eq_refl) as T.
    destruct (try_all [still (get_root (embedded files)); still fail] s) as [r s']. cbn [fst] in T. subst r.
    destruct (first_success [get_root (embedded files); get_root (client http ix)]) as [root|?|]; reflexivity. }
  destruct (obtain_rsa_net k files ix net x sent) as [r s]. cbn [fst] in O. subst r.
  destruct (obtain_rsa_ca k (Some (default_resolver files http ix)) c x); reflexivity.
Qed.

Lemma gen2_steady c sent : fst (verify_gen2_net k files ix net c sent) = verify_gen2 k (Some (default_resolver files http ix)) c.
Proof.
  unfold verify_gen2_net, verify_gen2. destruct (card_sign_certificate c) as [x|]; [|reflexivity].
  cbn [obtain_ecc_ca]. unfold default_resolver, chain. cbn [get_ecc map].
  pose proof (try_two (get_ecc (embedded files) (ecc_car x)) (client_ecc ix net (ecc_car x)) _ sent (client_ecc_steady _ sent)) as T.
  destruct (try_all [still (get_ecc (embedded files) (ecc_car x)); client_ecc ix net (ecc_car x)] sent) as [r s]. cbn [fst] in T. subst r.
  destruct (first_success [get_ecc (embedded files) (ecc_car x); get_ecc (client http ix) (ecc_car x)]); reflexivity.
Qed.

Lemma file_steady f sent : fst (verify_file_net k files ix net f sent) = verify_file k (default_resolver files http ix) f.
Proof.
  unfold verify_file_net, verify_file. destruct f as [f|]; [|reflexivity].
  destruct (file_type f =? FILE_DRIVER_CARD); [|destruct (_ || _); reflexivity]. destruct (file_driver_card f) as [c|]; [|reflexivity].
  assert (O : fst (verify_driver_card_net k files ix net c sent) = verify_driver_card k (Some (default_resolver files http ix)) c).
  { unfold verify_driver_card_net, verify_driver_card.
    assert (G : fst (if dc_has c Gen1 then verify_gen1_net k files ix net c sent else ((Ok tt, c), sent)) =
      (if dc_has c Gen1 then verify_gen1 k (Some (default_resolver files http ix)) c else (Ok tt, c))).
    { destruct (dc_has c Gen1); [apply gen1_steady|reflexivity]. }
    destruct (if dc_has c Gen1 then verify_gen1_net k files ix net c sent else ((Ok tt, c), sent)) as [r s]. cbn [fst] in G. subst r.
    destruct (if dc_has c Gen1 then verify_gen1 k (Some (default_resolver files http ix)) c else (Ok tt, c)) as [[[]|?|] c1]; try reflexivity.
    destruct (dc_has c1 Gen2); [apply gen2_steady|reflexivity]. }
  destruct (verify_driver_card_net k files ix net c sent) as [[o c'] s]. cbn [fst] in O. rewrite <- O. reflexivity.
Qed.
End Steady.

(** ** What is sent, whatever the network answers *)

Section Sent.
Variables (k : crypto) (files : cert_files) (ix : cert_index) (net : list bytes -> bytes -> res bytes).

(** One request to address [u] of a table, for the authority [name], or none. *)
Definition at_most_one (l : list (bytes * bytes)) (name : bytes) (sent : list bytes) : Prop :=
  sent = [] \/ exists u, sent = [u] /\ In (name, u) l.

Lemma url_in l chr u : url_of l chr = Some u -> In (chr, u) l.
Proof.
  unfold url_of. destruct (find _ l) as [[n d]|] eqn:E; [|discriminate]. intros H. injection H as ->.
  apply find_some in E as [E N]. cbn [fst] in N. destruct (list_eq_dec Z.eq_dec n chr) as [->|]; [exact E|discriminate].
Qed.

Lemma rsa_sent x sent : exists l, snd (obtain_rsa_net k files ix net x sent) = sent ++ l /\ at_most_one (ix_g1 ix) (rsa_car x) l /\
  (~ fails (get_rsa (embedded files) (rsa_car x)) -> l = []).
Proof.
  unfold obtain_rsa_net. cbn [try_all still].
  assert (Z0 : exists l, sent = sent ++ l /\ at_most_one (ix_g1 ix) (rsa_car x) l /\ (~ fails (get_rsa (embedded files) (rsa_car x)) -> l = []))
    by (exists []; rewrite app_nil_r; split; [reflexivity|]; split; [now left|reflexivity]).
  set (A := fun s => exists l, s = sent ++ l /\ at_most_one (ix_g1 ix) (rsa_car x) l /\ (~ fails (get_rsa (embedded files) (rsa_car x)) -> l = [])).
  assert (R : forall s o, A s -> A (snd (match get_root (embedded files) with
     | Ok a => (match o with None => fail | Some ca => match verify_rsa_with_root k ca a with (Ok _, ca') => Ok ca' | (Err e, _) => Err e | (Panic, _) => Panic end end, s)
     | Err _ => (fail, s) | Panic => (Panic, s) end))).
  { intros s o H. destruct (get_root (embedded files)); exact H. }
  destruct (get_rsa (embedded files) (rsa_car x)) as [o|e|] eqn:G.
  - destruct (_ || _); [|exact Z0]. destruct (get_root (embedded files)) as [root|?|]; try exact Z0. 
  - unfold client_rsa. destruct (url_of (ix_g1 ix) (rsa_car x)) as [u|] eqn:U; [|exact Z0].
    assert (Z1 : A (sent ++ [u])).
    { exists [u]. split; [reflexivity|]. split; [right; exists u; split; [reflexivity|now apply url_in]|]. intros N. destruct N. now exists e. }
    unfold fetch. destruct (let* d := net sent u in some_res (unmarshal_rsa d)) as [o|?|]; try exact Z1.
    destruct (_ || _); [|exact Z1]. destruct (get_root (embedded files)) as [root|?|]; exact Z1.
  - exact Z0.
Qed.

Lemma ecc_sent name sent : exists l, snd (try_all [still (get_ecc (embedded files) name); client_ecc ix net name] sent) = sent ++ l /\
  at_most_one (ix_g2 ix) name l /\ (~ fails (get_ecc (embedded files) name) -> l = []).
Proof.
  cbn [try_all still]. destruct (get_ecc (embedded files) name) as [o|e|] eqn:G.
  - exists []. rewrite app_nil_r. split; [reflexivity|]. split; [now left|reflexivity].
  - unfold client_ecc. destruct (url_of (ix_g2 ix) name) as [u|] eqn:U.
    + exists [u]. unfold fetch. split; [destruct (let* d := net sent u in some_res (unmarshal_ecc d)); reflexivity|].
      split; [right; exists u; split; [reflexivity|now apply url_in]|]. intros N. destruct N. now exists e.
    + exists []. rewrite app_nil_r. split; [reflexivity|]. split; [now left|reflexivity].
  - exists []. rewrite app_nil_r. split; [reflexivity|]. split; [now left|reflexivity].
Qed.
End Sent.

(** A verification with the default source sends at most two requests, whatever the
    network answers: one to the address that the index has for the authority that the
    first-generation certificate of the card names, and one to the address that it has
    for the authority that the second-generation certificate names.  The second is
    sent only if the first generation, if there is one, has verified; nothing is sent
    for certificates that the library carries, nor for files that are not driver
    cards.  If the network answers each request always the same way, outcome and file
    are those of [verify_file]. *)
Theorem C133_requests :
  (forall k files ix net f, exists first second,
     snd (verify_file_net k files ix net f []) = first ++ second /\
     (first = [] \/ exists c g x u, f = Some g /\ file_type g = FILE_DRIVER_CARD /\ file_driver_card g = Some c /\ dc_has c Gen1 = true /\
        card_certificate c = Some x /\ first = [u] /\ In (rsa_car x, u) (ix_g1 ix) /\ fails (get_rsa (embedded files) (rsa_car x))) /\
     (second = [] \/ exists c g x u, f = Some g /\ file_type g = FILE_DRIVER_CARD /\ file_driver_card g = Some c /\ dc_has c Gen2 = true /\
        card_sign_certificate c = Some x /\ second = [u] /\ In (ecc_car x, u) (ix_g2 ix) /\ fails (get_ecc (embedded files) (ecc_car x)) /\
        (dc_has c Gen1 = true -> exists c', snd (fst (verify_file_net k files ix net f [])) =
           Some (mkFile (file_type g) (file_vu g) (Some c') (file_raw_card g)) /\ option_map rsa_valid (card_certificate c') = Some (Some true)))) /\
  (forall k files http ix f, fst (verify_file_net k files ix (fun _ => http) f []) = verify_file k (default_resolver files http ix) f).
Proof.
  split; [|intros; apply file_steady].
  intros k files ix net f. unfold verify_file_net.
  assert (N : forall l : list bytes, l = [] -> exists first second, l = first ++ second /\ (first = [] \/ False) /\ (second = [] \/ False)) by (intros l ->; exists [], []; auto).
  assert (D : forall A B : Prop, (exists first second : list bytes, [] = first ++ second /\ (first = [] \/ A) /\ (second = [] \/ B))) by (intros; exists [], []; auto).
  destruct f as [g|]; [|exists [], []; cbn; auto].
  destruct (file_type g =? FILE_DRIVER_CARD) eqn:T; [|destruct (_ || _); exists [], []; cbn; auto]. apply Z.eqb_eq in T.
  destruct (file_driver_card g) as [c|] eqn:C; [|exists [], []; cbn; auto].
  unfold verify_driver_card_net.
  (* the first generation *)
  assert (F1 : exists first, snd (if dc_has c Gen1 then verify_gen1_net k files ix net c [] else ((Ok tt, c), [])) = first /\
    (first = [] \/ exists x u, dc_has c Gen1 = true /\ card_certificate c = Some x /\ first = [u] /\ In (rsa_car x, u) (ix_g1 ix) /\
       fails (get_rsa (embedded files) (rsa_car x))) /\
    (forall c1, fst (if dc_has c Gen1 then verify_gen1_net k files ix net c [] else ((Ok tt, c), [])) = (Ok tt, c1) ->
       card_sign_certificate c1 = card_sign_certificate c /\ dc_has c1 Gen2 = dc_has c Gen2 /\
       (dc_has c Gen1 = true -> option_map rsa_valid (card_certificate c1) = Some (Some true)))).
  { destruct (dc_has c Gen1) eqn:H1.
    - unfold verify_gen1_net. destruct (card_certificate c) as [x|] eqn:X.
      + destruct (rsa_sent k files ix net x []) as (l & L & O & E). cbn [List.app] in L.
        assert (O' : l = [] \/ exists x0 u, true = true /\ Some x = Some x0 /\ l = [u] /\ In (rsa_car x0, u) (ix_g1 ix) /\
                       fails (get_rsa (embedded files) (rsa_car x0))).
        { destruct O as [O|(u & O & I0)]; [now left|]. right. exists x, u. repeat split; auto.
          destruct (get_rsa (embedded files) (rsa_car x)) as [o|e|] eqn:G; [|now exists e|];
            (rewrite (E ltac:(intros [e0 E0]; discriminate)) in O; discriminate). }
        destruct (obtain_rsa_net k files ix net x []) as [[ca|?|] s]; cbn [snd] in L; subst s.
        * exists l. cbn [snd fst]. split; [reflexivity|]. split; [exact O'|]. intros c1. cbn [verify_rsa_with_ca].
          pose proof (sign_after k (Some (chain [])) c) as SA. clear SA.
          destruct (verify_rsa k x (rsa_n ca) (rsa_e ca) (rsa_chr ca)) as [o x'] eqn:V. intros Q. injection Q as -> <-.
          assert (VT : rsa_valid x' = Some true).
          { clear - V. unfold verify_rsa in V. cbv zeta in V.
            repeat match type of V with context [if ?b then (fail, _) else _] => destruct b; [discriminate V|] end.
            apply (f_equal snd) in V. cbn [snd] in V. subst x'. reflexivity. }
          split; [unfold card_sign_certificate, store_rsa; now rewrite slot_set_other by discriminate|].
          split; [reflexivity|]. intros _. unfold card_certificate, store_rsa. rewrite slot_set_same. cbn. now rewrite VT.
        * exists l. cbn [snd fst]. split; [reflexivity|]. split; [exact O'|]. discriminate.
        * exists l. cbn [snd fst]. split; [reflexivity|]. split; [exact O'|]. discriminate.
      + exists []. cbn [snd fst]. split; [reflexivity|]. split; [now left|]. discriminate.
    - exists []. cbn [snd fst]. split; [reflexivity|]. split; [now left|]. intros c1 Q. injection Q as <-. repeat split; auto. discriminate. }
  destruct F1 as (first & E1 & O1 & K1).
  assert (O1' : first = [] \/ exists c0 g0 x u, Some g = Some g0 /\ file_type g0 = FILE_DRIVER_CARD /\ file_driver_card g0 = Some c0 /\ dc_has c0 Gen1 = true /\
        card_certificate c0 = Some x /\ first = [u] /\ In (rsa_car x, u) (ix_g1 ix) /\ fails (get_rsa (embedded files) (rsa_car x))).
  { destruct O1 as [O1|(x & u & H1 & X & O1 & I1 & G1)]; [now left|]. right. exists c, g, x, u. repeat split; auto. }
  destruct (if dc_has c Gen1 then verify_gen1_net k files ix net c [] else ((Ok tt, c), [])) as [[o c1] s1]. cbn [snd fst] in E1, K1. subst s1.
  destruct o as [[]|?|]; try (exists first, []; cbn [snd fst]; split; [symmetry; apply List.app_nil_r|]; split; [exact O1'|now left]).
  destruct (K1 c1 eq_refl) as (S1 & H2 & V1). rewrite H2. destruct (dc_has c Gen2) eqn:H3; [|exists first, []; cbn [snd fst]; split; [symmetry; apply List.app_nil_r|]; split; [exact O1'|now left]].
  unfold verify_gen2_net. rewrite S1. destruct (card_sign_certificate c) as [y|] eqn:Y; [|exists first, []; cbn [snd fst]; split; [symmetry; apply List.app_nil_r|]; split; [exact O1'|now left]].
  destruct (ecc_sent files ix net (ecc_car y) first) as (l & L & O & E).
  assert (G : l = [] \/ fails (get_ecc (embedded files) (ecc_car y))).
  { destruct (get_ecc (embedded files) (ecc_car y)) as [o|e|] eqn:G; [left|right; now exists e|left]; apply E; intros [e0 E0]; discriminate. }
  exists first, l.
  destruct (try_all [still (get_ecc (embedded files) (ecc_car y)); client_ecc ix net (ecc_car y)] first) as [[ca|?|] s]; cbn [snd] in L; subst s; cbn [snd fst].
  - destruct (verify_ecc k y ca) as [o2 y'] eqn:VE. cbn [snd fst]. split; [reflexivity|]. split; [exact O1'|].
    destruct O as [O|(u & O & I0)]; [now left|]. destruct G as [G|G]; [now left|]. right. exists c, g, y, u. repeat split; auto. intros Hg1.
    eexists. split; [reflexivity|]. rewrite <- (V1 Hg1). unfold card_certificate at 1, store_ecc. now rewrite slot_set_other by discriminate.
  - split; [reflexivity|]. split; [exact O1'|].
    destruct O as [O|(u & O & I0)]; [now left|]. destruct G as [G|G]; [now left|]. right. exists c, g, y, u. repeat split; auto. intros Hg1.
    eexists. split; [reflexivity|]. exact (V1 Hg1).
  - split; [reflexivity|]. split; [exact O1'|].
    destruct O as [O|(u & O & I0)]; [now left|]. destruct G as [G|G]; [now left|]. right. exists c, g, y, u. repeat split; auto. intros Hg1.
    eexists. split; [reflexivity|]. exact (V1 Hg1).
Qed.
Print Assumptions C133_requests.

(** The toy card: both requests are sent. *)
Example C133_example : exists c, snd (verify_file_net toy (toy_files toy_root) toy_index (fun _ => toy_http) (Some (driver_file c)) []) = [[47]; [48]].
Proof.
  assert (H : exists c, verified toy (toy_resolver toy_root) (toy_dump [0; 0; 0; 1] [0; 0; 0; 1] 1) c /\
    (match snd (verify_file_net toy (toy_files toy_root) toy_index (fun _ => toy_http) (Some (driver_file c)) []) with [[a]; [b]] => (a =? 47) && (b =? 48) | _ => false end) = true).
  { apply verified_b_ok. vm_compute. reflexivity. }
  destruct H as (c & _ & H). exists c.
  destruct (snd (verify_file_net toy (toy_files toy_root) toy_index (fun _ => toy_http) (Some (driver_file c)) [])) as [|[|a [|? ?]] [|[|b [|? ?]] [|? ?]]]; try discriminate H.
  apply andb_true_iff in H as [A B]. apply Z.eqb_eq in A, B. now subst.
Qed.
