(** Driver cards: the files one by one, and the parser as a fold. *)

From Coq Require Import Eqdep_dec Permutation.
From Verif Require Import Base Enums Chunks DDScalar DDString DDRecord RawTypes RawCard P_RawCard Infer.
From Verif Require Import Field P_Scanner CardBasic P_Basic CardRecords P_Record P_Records.
From Verif Require Import CardIdent P_Ident CardActivity Props_Activity Cert P_Cert DriverCard.

(** ** Certificates *)

Lemma rsa_codec : codec unmarshal_rsa (fun c => Ok (rsa_raw c)) (fun d => (length d =? 194)%nat) (fun d => Ok d).
Proof.
  intros d H. cbv beta. unfold unmarshal_rsa. destruct (length d =? 194)%nat eqn:L; cbn [guard bind]; [|reflexivity].
  cbn [rsa_raw]. split; [reflexivity|]. split; [reflexivity|]. split; [discriminate|]. intros d' E. apply Ok_inj in E.
  subst d'. auto.
Qed.

Lemma ecc_codec : codec unmarshal_ecc (fun c => Ok (ecc_raw c)) (fun d => is_ok (unmarshal_ecc d)) (fun d => Ok d).
Proof.
  intros d H. pose proof (ecc_no_panic d) as NP.
  destruct (unmarshal_ecc d) as [x|e|] eqn:E; [|reflexivity|congruence].
  assert (R : ecc_raw x = d).
  { unfold unmarshal_ecc in E.
    repeat (match type of E with
            | bind _ _ = Ok _ => apply bind_ok in E as (? & _ & E); cbv beta in E
            | (let '(_, _) := ?p in _) = Ok _ => destruct p
            end). apply Ok_inj in E. now subst x. }
  rewrite R. split; auto. split; auto. split; [discriminate|]. intros d' E'. apply Ok_inj in E'. subst d'.
  rewrite E. auto.
Qed.

(** ** One file *)

(** The bytes a slot's file can have for the decode-encode theorems to apply. *)
Definition slot_P (s : slot) : bytes -> Prop :=
  match s with
  | S_identification | S2_identification => ident_fits
  | S_events | S2_events | S_faults | S2_faults => scan_safe 24
  | S2_units => fun d => Z.of_nat (length d) <= 4098
  | _ => fun _ => True
  end.

(** The files accepted, and what is written for them. *)
Definition slot_A (s : slot) : bytes -> bool :=
  match s with
  | S_icc => fun d => (flen icc_fields <=? length d)%nat && acc_at icc_fields d 0
  | S_ic => fun d => (flen ic_fields <=? length d)%nat && acc_at ic_fields d 0
  | S_app_id => fun d => (length d =? flen app_id_fields)%nat && acc_at app_id_fields d 0
  | S2_app_id => fun d => (length d =? flen app_id_g2_fields)%nat && acc_at app_id_g2_fields d 0
  | S_licence | S2_licence => fun d => (flen driving_licence_fields <=? length d)%nat && acc_at driving_licence_fields d 0
  | S_identification | S2_identification => fun d => (143 <=? length d)%nat
  | S_events | S2_events | S_faults | S2_faults => file_acc 0 f_event
  | S_activity | S2_activity => fun d => is_ok (unmarshal_activity d)
  | S_vehicles => file_acc 2 (fseq vehicle_fields)
  | S2_vehicles => file_acc 2 (fseq vehicle_g2_fields)
  | S_places => file_acc 1 (f_id 10)
  | S2_places => file_acc 2 (f_id 21)
  | S_usage | S2_usage => fun d => (flen current_usage_fields <=? length d)%nat && acc_at current_usage_fields d 0
  | S_control | S2_control => fun d => (46 <=? length d)%nat
  | S_conditions => file_acc 0 (f_id 5)
  | S2_conditions => fun d => (2 <=? length d)%nat
  | S_download | S2_download => fun d => (flen card_download_fields <=? length d)%nat && acc_at card_download_fields d 0
  | S2_units => fun d => (2 <=? length d)%nat && file_whole 2 10 d
  | S2_gnss => fun d => file_whole 2 18 d && file_acc 2 (fseq gnss_fields) d
  | S2_app_v2 => fun d => (flen app_id_v2_fields <=? length d)%nat && acc_at app_id_v2_fields d 0
  | S_card_cert | S_ca_cert => fun d => (length d =? 194)%nat
  | S2_ma_cert | S2_sign_cert | S2_ca_cert | S2_link_cert => fun d => is_ok (unmarshal_ecc d)
  end.

Definition slot_W (s : slot) : bytes -> res bytes :=
  match s with
  | S_icc => fun d => w_at icc_fields d 0
  | S_ic => fun d => w_at ic_fields d 0
  | S_app_id => fun d => w_at app_id_fields d 0
  | S2_app_id => fun d => w_at app_id_g2_fields d 0
  | S_licence | S2_licence => fun d => w_at driving_licence_fields d 0
  | S_identification | S2_identification => fun d => w_at ident_fields d 0
  | S_events | S2_events | S_faults | S2_faults => file_w 0 f_event
  | S_vehicles => file_w 2 (fseq vehicle_fields)
  | S2_vehicles => file_w 2 (fseq vehicle_g2_fields)
  | S_places => file_w 1 (f_id 10)
  | S2_places => file_w 2 (f_id 21)
  | S_usage | S2_usage => fun d => w_at current_usage_fields d 0
  | S_control | S2_control => w_control
  | S_conditions => file_w 0 (f_id 5)
  | S_download | S2_download => fun d => w_at card_download_fields d 0
  | S2_gnss => file_w 2 (fseq gnss_fields)
  | S2_app_v2 => fun d => w_at app_id_v2_fields d 0
  | _ => fun d => Ok d
  end.

Lemma slot_codec cm s :
  codec_on (slot_P s) (unmarshal_content cm s) (append_content s) (slot_A s) (slot_W s).
Proof.
  destruct s; cbn [slot_P unmarshal_content append_content slot_A slot_W];
    first [ exact (events_codec cm) | exact (ident_codec cm) | exact units_used_codec
          | apply codec_codec_on;
            first [ exact icc_codec | exact ic_codec | exact app_id_codec | exact app_id_g2_codec
                  | exact (driving_licence_codec cm) | exact activity_codec | exact (vehicles_codec cm)
                  | exact (vehicles_g2_codec cm) | exact places_codec | exact places_g2_codec
                  | exact (current_usage_codec cm) | exact (control_activity_codec cm)
                  | exact conditions_codec | exact conditions_g2_codec | exact card_download_codec
                  | exact gnss_places_codec | exact app_id_v2_codec | exact rsa_codec | exact ecc_codec ] ].
Qed.

Lemma content_no_panic cm s d : bytes_ok d -> unmarshal_content cm s d <> Panic.
Proof. intros H E. pose proof (slot_codec cm s d H) as C. rewrite E in C. exact C. Qed.

(** ** Routing *)

Lemma route_no_panic f g : route f g <> Panic.
Proof.
  unfold route, by_generation, only_generation.
  repeat (match goal with |- context [if ?b then _ else _] => destruct b end; try discriminate).
Qed.

(** A data record with the signature found behind it. *)
Definition unit_in : Type := (raw_record * option bytes)%type.

(** What a record contributes to the card: nothing, or one field. *)
Record filed := Filed { fl_slot : slot; fl_entry : entry fl_slot }.

Section Fold.
Variable cm : Z -> Z -> Z.

Definition entry_of (u : unit_in) : res (option filed) :=
  let* o := route (rr_file (fst u)) (rr_generation (fst u)) in
  match o with
  | None => Ok None
  | Some s =>
      let* v := unmarshal_content cm s (rr_value (fst u)) in
      let* _ := guard (negb (rejects_signature s && match snd u with None => false | Some _ => true end)) in
      Ok (Some (Filed s (v, snd u)))
  end.

Definition put (c : driver_card) (o : option filed) : driver_card :=
  match o with None => c | Some e => set_slot c (fl_slot e) (fl_entry e) end.

Lemma step_entry c r sg : step cm c r sg = (let* o := entry_of (r, sg) in Ok (put c o)).
Proof.
  unfold step, entry_of. cbn [fst snd]. destruct (route _ _) as [[s|]|e|]; cbn [bind put]; auto.
  destruct (unmarshal_content cm s _) as [v|e|]; cbn [bind]; auto.
  destruct (guard _); reflexivity.
Qed.

Lemma entry_no_panic u : bytes_ok (rr_value (fst u)) -> entry_of u <> Panic.
Proof.
  intros H. unfold entry_of. pose proof (route_no_panic (rr_file (fst u)) (rr_generation (fst u))).
  destruct (route _ _) as [[s|]|e|]; cbn [bind]; try congruence.
  pose proof (content_no_panic cm s _ H). destruct (unmarshal_content cm s _) as [v|e|]; cbn [bind]; try congruence.
  destruct (negb _); discriminate.
Qed.

(** Data records paired with the signatures behind them. *)
Inductive grouped : list raw_record -> list unit_in -> Prop :=
  | grouped_nil : grouped [] []
  | grouped_plain : forall r rs us, rr_content r = CONTENT_DATA ->
      match rs with [] => True | n :: _ => rr_file n <> rr_file r \/ rr_content n <> CONTENT_SIGNATURE end ->
      grouped rs us -> grouped (r :: rs) ((r, None) :: us)
  | grouped_signed : forall r n rs us, rr_content r = CONTENT_DATA -> rr_file n = rr_file r ->
      rr_content n = CONTENT_SIGNATURE -> grouped rs us -> grouped (r :: n :: rs) ((r, Some (rr_value n)) :: us).

Lemma unmarshal_records_ok n : forall rs c c', (length rs <= n)%nat ->
  (unmarshal_records cm c rs = Ok c' <->
   exists us os, grouped rs us /\ map_res entry_of us = Ok os /\ c' = fold_left put os c).
Proof.
  induction n as [|n IH]; intros rs c c' L.
  - destruct rs; [|cbn [length] in L; lia]. cbn [unmarshal_records]. split.
    + intros E. apply Ok_inj in E. subst c'. exists [], []. repeat split. constructor.
    + intros (us & os & G & M & ->). inversion G; subst. cbn [map_res] in M. apply Ok_inj in M. now subst os.
  - destruct rs as [|r rs].
    { cbn [unmarshal_records]. split.
      + intros E. apply Ok_inj in E. subst c'. exists [], []. repeat split. constructor.
      + intros (us & os & G & M & ->). inversion G; subst. cbn [map_res] in M. apply Ok_inj in M. now subst os. }
    cbn [unmarshal_records length] in *.
    destruct (Z.eqb_spec (rr_content r) CONTENT_DATA) as [D|D]; cbn [guard bind].
    2:{ split; [discriminate|]. intros (us & os & G & _). inversion G; subst; contradiction. }
    assert (Step : forall u rest us', grouped (r :: rs) (u :: us') -> grouped rest us' -> (length rest <= n)%nat ->
              (let* c1 := step cm c (fst u) (snd u) in unmarshal_records cm c1 rest) = Ok c' ->
              exists us os, grouped (r :: rs) us /\ map_res entry_of us = Ok os /\ c' = fold_left put os c).
    { intros u rest us' G G' LR E. rewrite step_entry, <- surjective_pairing in E.
      apply bind_ok in E as (c1 & E1 & E2). apply bind_ok in E1 as (o & E1 & Q). apply Ok_inj in Q. subst c1.
      apply IH in E2 as (us & os & G2 & M & ->); auto.
      assert (us = us') as ->.
      { clear - G' G2. revert us G2. induction G' as [|r rs us' D N G IH|r m rs us' D F C G IH]; intros us G2.
        - inversion G2; auto.
        - inversion G2; subst; [f_equal; auto|]. cbn in N. destruct N; contradiction.
        - inversion G2; subst; [cbn in *; intuition congruence|f_equal; auto]. }
      exists (u :: us'), (o :: os). split; auto. cbn [map_res]. rewrite E1. cbn [bind]. rewrite M. auto. }
    destruct rs as [|m rs].
    + split.
      * intros E. apply (Step (r, None) [] []); [|constructor|cbn; lia|].
        { repeat constructor; auto. }
        cbn [fst snd unmarshal_records]. destruct (step cm c r None); auto.
      * intros (us & os & G & M & ->). inversion G as [|? ? us' _ _ G'|]; subst. inversion G'; subst.
        cbn [map_res] in M. apply bind_ok in M as (o & E & M). cbn [bind] in M. apply Ok_inj in M. subst os.
        rewrite (step_entry c r None), E. reflexivity.
    + destruct (Z.eqb_spec (rr_file m) (rr_file r)) as [FE|FE];
        destruct (Z.eqb_spec (rr_content m) CONTENT_SIGNATURE) as [CE|CE]; cbn [andb].
      1:{ split.
          - intros E. assert (X := E). apply bind_ok in X as (c1 & E1 & E2).
            apply IH in E2 as (us & os & G & M & _); [|cbn [length] in L; lia].
            apply (Step (r, Some (rr_value m)) rs us); auto.
            + constructor; auto.
            + cbn [length] in L. lia.
          - intros (us & os & G & M & ->). inversion G as [|? ? us' _ N G'|? ? ? us' _ _ _ G']; subst.
            { cbn in N. destruct N; contradiction. }
            cbn [map_res] in M. apply bind_ok in M as (o & E & M). apply bind_ok in M as (os' & M & Q).
            apply Ok_inj in Q. subst os. rewrite (step_entry c r (Some (rr_value m))), E. cbn [bind fold_left].
            apply IH; [cbn [length] in L; lia|]. exists us', os'. auto. }
      all: split;
          [ intros E; assert (X := E); apply bind_ok in X as (c1 & E1 & E2);
            apply IH in E2 as (us & os & G & M & _); [|cbn [length] in *; lia];
            apply (Step (r, None) (m :: rs) us); auto; [constructor; auto|cbn [length] in *; lia]
          | intros (us & os & G & M & ->); inversion G as [|? ? us' _ N G'|? ? ? us' _ F' C' G']; subst;
            [| congruence];
            cbn [map_res] in M; apply bind_ok in M as (o & E & M); apply bind_ok in M as (os' & M & Q);
            apply Ok_inj in Q; subst os; rewrite (step_entry c r None), E; cbn [bind fold_left];
            apply IH; [cbn [length] in *; lia|]; exists us', os'; auto ].
Qed.

Lemma unmarshal_records_no_panic n : forall rs c, (length rs <= n)%nat ->
  Forall (fun r => bytes_ok (rr_value r)) rs -> unmarshal_records cm c rs <> Panic.
Proof.
  induction n as [|n IH]; intros rs c L F; destruct rs as [|r rs]; cbn [unmarshal_records]; try discriminate;
    [cbn [length] in L; lia|].
  inversion F as [|? ? Hr F']; subst. cbn [length] in L.
  destruct (rr_content r =? CONTENT_DATA); cbn [guard bind]; [|discriminate].
  assert (SP : forall sg, step cm c r sg <> Panic).
  { intros sg. rewrite (step_entry c r sg). pose proof (entry_no_panic (r, sg) Hr).
    destruct (entry_of (r, sg)); cbn [bind]; congruence. }
  destruct rs as [|m rs]; auto. inversion F' as [|? ? Hm F'']; subst. cbn [length] in L.
  destruct (_ && _).
  - pose proof (SP (Some (rr_value m))). destruct (step cm c r _); cbn [bind]; try congruence. apply IH; auto. lia.
  - pose proof (SP None). destruct (step cm c r _); cbn [bind]; try congruence. apply IH; auto. cbn [length]. lia.
Qed.

End Fold.

(** ** The card as a list of filed entries *)

Definition entry_at (s : slot) (e : filed) : option (entry s) :=
  match slot_eq_dec (fl_slot e) s with
  | left q => Some (eq_rect (fl_slot e) entry (fl_entry e) s q)
  | right _ => None
  end.

(** The last entry for a slot. *)
Fixpoint latest (s : slot) (l : list (option filed)) (d : option (entry s)) : option (entry s) :=
  match l with
  | [] => d
  | None :: t => latest s t d
  | Some e :: t => latest s t (match entry_at s e with Some v => Some v | None => d end)
  end.

Definition in_app (a : app) (o : option filed) : bool :=
  match o with None => false | Some e => app_eqb a (slot_app (fl_slot e)) end.

Lemma app_eqb_eq a b : app_eqb a b = true <-> a = b.
Proof. destruct a, b; cbn; split; congruence. Qed.

Lemma entry_at_self s v : entry_at s (Filed s v) = Some v.
Proof.
  unfold entry_at. cbn [fl_slot fl_entry]. destruct (slot_eq_dec s s) as [q|q]; [|congruence].
  f_equal. rewrite (UIP_dec slot_eq_dec q eq_refl). reflexivity.
Qed.

Lemma entry_at_other s e : fl_slot e <> s -> entry_at s e = None.
Proof. intros N. unfold entry_at. destruct (slot_eq_dec _ _); congruence. Qed.

Lemma entry_at_some s e v : entry_at s e = Some v -> e = Filed s v.
Proof.
  unfold entry_at. destruct e as [t w]. cbn [fl_slot fl_entry]. destruct (slot_eq_dec t s) as [q|q]; [|discriminate].
  destruct q. cbn [eq_rect]. intros E. injection E as E. now subst.
Qed.

Lemma slot_of_set c s v t :
  slot_of_card (set_slot c s v) t = match entry_at t (Filed s v) with Some w => Some w | None => slot_of_card c t end.
Proof.
  unfold slot_of_card at 1, set_slot, entry_at. cbn [dc_has dc_slot fl_slot fl_entry].
  destruct (slot_eq_dec s t) as [q|q].
  - destruct q. cbn [eq_rect]. replace (app_eqb (slot_app s) (slot_app s)) with true by (symmetry; now apply app_eqb_eq).
    reflexivity.
  - destruct (app_eqb (slot_app t) (slot_app s) || dc_has c (slot_app t)) eqn:E; auto.
    apply orb_false_iff in E as [_ E]. unfold slot_of_card. now rewrite E.
Qed.

Lemma put_slot c o s : slot_of_card (put c o) s = latest s [o] (slot_of_card c s).
Proof. destruct o as [[t v]|]; cbn [put latest fl_slot fl_entry]; auto. apply slot_of_set. Qed.

Lemma fold_put_slot os : forall c s, slot_of_card (fold_left put os c) s = latest s os (slot_of_card c s).
Proof.
  induction os as [|o os IH]; intros c s; cbn [fold_left latest]; auto.
  rewrite IH, put_slot. destruct o as [e|]; reflexivity.
Qed.

Lemma fold_put_has os : forall c a, dc_has (fold_left put os c) a = dc_has c a || existsb (in_app a) os.
Proof.
  induction os as [|o os IH]; intros c a; cbn [fold_left existsb]; [now rewrite orb_false_r|].
  rewrite IH. destruct o as [e|]; cbn [put in_app orb]; auto.
  cbn [set_slot dc_has]. destruct (app_eqb _ _), (dc_has c a), (existsb _ _); reflexivity.
Qed.

Definition card_of (os : list (option filed)) : driver_card := fold_left put os empty_card.

Lemma card_of_slot os s : slot_of_card (card_of os) s = latest s os None.
Proof. unfold card_of. rewrite fold_put_slot. f_equal. unfold slot_of_card. destruct (dc_has _ _); reflexivity. Qed.

Lemma card_of_has os a : dc_has (card_of os) a = app_eqb a Master || existsb (in_app a) os.
Proof. unfold card_of. rewrite fold_put_has. destruct a; reflexivity. Qed.

Lemma unmarshal_driver_card_ok cm rs c : unmarshal_driver_card cm rs = Ok c <->
  exists us os, grouped rs us /\ map_res (entry_of cm) us = Ok os /\ c = card_of os.
Proof. apply (unmarshal_records_ok cm (length rs)). lia. Qed.

Lemma unmarshal_driver_card_no_panic cm rs :
  Forall (fun r => bytes_ok (rr_value r)) rs -> unmarshal_driver_card cm rs <> Panic.
Proof. apply (unmarshal_records_no_panic cm (length rs)). lia. Qed.

(** Two cards with the same content. *)
Definition same_card (c c' : driver_card) : Prop :=
  (forall a, dc_has c a = dc_has c' a) /\ forall s, slot_of_card c s = slot_of_card c' s.
