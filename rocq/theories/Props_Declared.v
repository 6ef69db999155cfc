(** Property C126: the numbers of records that a card declares against the numbers of
    records that are read. *)

From Verif Require Import Base Enums Chunks DDScalar P_Scalar DDString DDRecord.
From Verif Require Import Scanner P_Scanner RawTypes RawCard P_RawCard Infer CardBasic CardRecords P_Records CardIdent.
From Verif Require Import CardActivity Asn1 Cert P_Cert DriverCard P_Driver Vu P_Vu Verify Api P_Dump Props_RawCard Props_Dump Props_Driver.
From Verif Require Import Props_Size Props_Lists.

(** ** What a card declares *)

(** The files whose size follows from the application identification.  The number of
    records, with the number of bytes of the ring for the activity file. *)
Definition held (s : slot) : content s -> option nat :=
  match s return content s -> option nat with
  | S_events | S2_events | S_faults | S2_faults => fun l => Some (length l)
  | S_activity | S2_activity => fun x => Some (length (act_raw x))
  | S_vehicles => fun x => Some (length (vs_records x))
  | S2_vehicles => fun x => Some (length (vs2_records x))
  | S_places => fun x => Some (length (ps_records x))
  | S2_places => fun x => Some (length (ps2_records x))
  | S_conditions => fun x => Some (length (co_records x))
  | S2_conditions => fun x => Some (length (co2_records x))
  | S2_units => fun x => Some (length (uu_records x))
  | S2_gnss => fun x => Some (length (gps_records x))
  | _ => fun _ => None
  end.

(** The number declared: events of 6 types in the first generation and of 11 in the
    second, faults of 2; 56 conditions are prescribed for the first generation. *)
Definition declares (c : driver_card) (s : slot) : option Z :=
  let g1 f := match slot_of_card c S_app_id with
              | Some (x, _) => match ai_driver x with Some a => f a | None => None end
              | None => None
              end in
  let g2 f := match slot_of_card c S2_app_id with
              | Some (x, _) => match ai2_driver x with Some a => f a | None => None end
              | None => None
              end in
  match s with
  | S_events => option_map (Z.mul 6) (g1 ad_events)
  | S_faults => option_map (Z.mul 2) (g1 ad_faults)
  | S_activity => g1 ad_activity_length
  | S_vehicles => g1 ad_vehicles
  | S_places => g1 ad_places
  | S_conditions => Some 56
  | S2_events => option_map (Z.mul 11) (g2 ad2_events)
  | S2_faults => option_map (Z.mul 2) (g2 ad2_faults)
  | S2_activity => g2 ad2_activity_length
  | S2_vehicles => g2 ad2_vehicles
  | S2_places => g2 ad2_places
  | S2_conditions => g2 ad2_conditions
  | S2_units => g2 ad2_units
  | S2_gnss => g2 ad2_gnss
  | _ => None
  end.

(** The full statement: what is read agrees with what is declared. *)
Definition as_declared (c : driver_card) : Prop :=
  forall s x sg n k, slot_of_card c s = Some (x, sg) -> held s x = Some n -> declares c s = Some k -> Z.of_nat n = k.

(** ** What is read *)

(** The bytes before the first record and the size of a record *)
Definition layout (s : slot) : option (nat * nat) :=
  match s with
  | S_events | S2_events | S_faults | S2_faults => Some (0, 24)%nat
  | S_activity | S2_activity => Some (4, 1)%nat
  | S_vehicles => Some (2, 31)%nat
  | S2_vehicles => Some (2, 48)%nat
  | S_places => Some (1, 10)%nat
  | S2_places => Some (2, 21)%nat
  | S_conditions => Some (0, 5)%nat
  | S2_conditions => Some (2, 5)%nat
  | S2_units => Some (2, 10)%nat
  | S2_gnss => Some (2, 18)%nat
  | _ => None
  end.

Lemma scanned_count n d l : (0 < n <= max_token_size)%nat -> scan_fixed n d = Ok l -> length l = (length d / n)%nat.
Proof.
  intros N E. destruct (scan_fixed_chunks n d N) as (l' & E' & M). rewrite E in E'. apply Ok_inj in E'. subst l'.
  rewrite <- (map_length fst), M. apply chunks_count.
Qed.

Lemma conditions_count d : length (collect_ok unmarshal_spec_cond (chunks 5 d)) = (length d / 5)%nat.
Proof.
  rewrite <- chunks_count. pose proof (chunks_each 5 d ltac:(lia)) as L.
  induction L as [|b bs Lb L IH]; [reflexivity|]. cbn [collect_ok]. destruct (condition_total b Lb) as (r & ->). cbn [length]. now f_equal.
Qed.

Lemma content_count cm s d x n : unmarshal_content cm s d = Ok x -> held s x = Some n ->
  exists h k, layout s = Some (h, k) /\ (0 < k)%nat /\ n = ((length d - h) / k)%nat.
Proof.
  intros E H. assert (T : (24 <= max_token_size)%nat) by (apply Nat.leb_le; vm_compute; reflexivity).
  destruct s; try discriminate H; cbn [held layout] in *; injection H as <-; do 2 eexists;
    (split; [reflexivity|]); (split; [lia|]); cbn [unmarshal_content content] in *;
    try (unfold unmarshal_events in E; apply bind_ok in E as (l & S & E); apply map_res_length in E; rewrite E, Nat.sub_0_r;
         apply scanned_count; [lia|exact S]);
    try (unfold unmarshal_activity in E; apply bind_ok in E as (u & _ & E); cbv zeta in E; destruct (_ =? 0)%nat; [discriminate E|];
         apply bind_ok in E as (ds & _ & E); apply Ok_inj in E; subst x; cbn [act_raw]; rewrite skipn_length, Nat.div_1_r; reflexivity).
  - unfold unmarshal_vehicles in E. inv_bind E. apply bind_ok in E as (rs & M & E). apply Ok_inj in E. subst x. cbn [vs_records].
    apply map_res_length in M. now rewrite M, chunks_count, skipn_length.
  - unfold unmarshal_places in E. inv_bind E. apply Ok_inj in E. subst x. cbn [ps_records]. now rewrite map_length, chunks_count, skipn_length.
  - unfold unmarshal_conditions in E. rewrite Nat.sub_0_r. destruct (Nat.eqb_spec (length d) 0) as [Z0|]; apply Ok_inj in E; subst x; cbn [co_records].
    + rewrite Z0. reflexivity.
    + apply conditions_count.
  - unfold unmarshal_vehicles_g2 in E. inv_bind E. apply bind_ok in E as (rs & M & E). apply Ok_inj in E. subst x. cbn [vs2_records].
    apply map_res_length in M. now rewrite M, chunks_count, skipn_length.
  - unfold unmarshal_places_g2 in E. inv_bind E. apply Ok_inj in E. subst x. cbn [ps2_records]. now rewrite map_length, chunks_count, skipn_length.
  - unfold unmarshal_conditions_g2 in E. inv_bind E. apply Ok_inj in E. subst x. cbn [co2_records]. now rewrite conditions_count, skipn_length.
  - unfold unmarshal_units_used in E. do 2 inv_bind E. apply bind_ok in E as (l & S & E). apply bind_ok in E as (rs & M & E).
    apply Ok_inj in E. subst x. cbn [uu_records]. apply map_res_length in M. rewrite M, (scanned_count 10 _ _ ltac:(lia) S). now rewrite skipn_length.
  - unfold unmarshal_gnss_places in E. do 2 inv_bind E. apply bind_ok in E as (l & S & E). apply bind_ok in E as (rs & M & E).
    apply Ok_inj in E. subst x. cbn [gps_records]. apply map_res_length in M. rewrite M, (scanned_count 18 _ _ ltac:(lia) S). now rewrite skipn_length.
Qed.

(** The number of records is the number of whole records that the last file of the field has
    room for, whatever the card declares.  So what is read agrees with the declaration
    if the files have the sizes that follow from it, up to an incomplete record at
    the end. *)
Theorem C126_numbers_partial :
  (forall cm us c s x sg n, Forall dumped_ok us -> accepted cm us c -> slot_of_card c s = Some (x, sg) -> held s x = Some n ->
     exists before u after h k, us = before ++ u :: after /\ field_of (u_fid u) (u_gen2 u) = Some s /\
       Forall (fun w => field_of (u_fid w) (u_gen2 w) <> Some s) after /\
       layout s = Some (h, k) /\ n = ((length (u_val u) - h) / k)%nat) /\
  (forall cm us c, Forall dumped_ok us -> accepted cm us c ->
     (forall u s h k m, In u us -> field_of (u_fid u) (u_gen2 u) = Some s -> layout s = Some (h, k) -> declares c s = Some m ->
        exists j r, m = Z.of_nat j /\ (r < k)%nat /\ length (u_val u) = (h + k * j + r)%nat) ->
     as_declared c).
Proof.
  assert (P : forall cm us c s x sg n, Forall dumped_ok us -> accepted cm us c -> slot_of_card c s = Some (x, sg) -> held s x = Some n ->
     exists before u after h k, us = before ++ u :: after /\ field_of (u_fid u) (u_gen2 u) = Some s /\
       Forall (fun w => field_of (u_fid w) (u_gen2 w) <> Some s) after /\
       layout s = Some (h, k) /\ n = ((length (u_val u) - h) / k)%nat).
  { intros cm us c s x sg n V A Sl H. apply accepted_iff in A as (os & _ & _ & G & ->); [|exact V].
    destruct (card_some cm us os s _ G Sl) as (a & u & b & -> & Fu & N & _ & X & _). cbn [fst] in X.
    destruct (content_count cm s _ x n X H) as (h & k & Ly & _ & En). exists a, u, b, h, k. repeat split; auto. }
  split; [exact P|]. intros cm us c V A Z s x sg n m Sl H D.
  destruct (P cm us c s x sg n V A Sl H) as (a & u & b & h & k & Eu & Fu & _ & Ly & ->).
  destruct (Z u s h k m) as (j & r & -> & R & L); auto. { rewrite Eu. apply in_or_app. right. now left. }
  f_equal. rewrite L. replace (h + k * j + r - h)%nat with (k * j + r)%nat by lia. symmetry. apply (Nat.div_unique _ _ j r); lia.
Qed.

(** ** A card with fewer records than it declares *)

(** 84 places are declared; there is room for one, or for all. *)
Definition short_places : list dumped :=
  [icc_unit;
   mkDumped 0x0501 0 [1; 0; 0; 6; 12; 0; 16; 0; 0; 84] None;
   mkDumped 0x0506 0 (repeat 0 11) None].

Definition enough_places : list dumped :=
  [icc_unit;
   mkDumped 0x0501 0 [1; 0; 0; 6; 12; 0; 16; 0; 0; 84] None;
   mkDumped 0x0506 0 (repeat 0 845) None].

Theorem C126_numbers_refuted :
  exists cm us c s x sg n k, Forall dumped_ok us /\ accepted cm us c /\
    slot_of_card c s = Some (x, sg) /\ held s x = Some n /\ declares c s = Some k /\ (n < Z.to_nat k)%nat.
Proof.
  destruct (driver_ok_accepted short_places) as (V & c & A); [vm_compute; reflexivity|].
  pose proof A as A'. apply accepted_iff in A' as (os & _ & _ & G & ->); [|exact V].
  destruct (card_last no_charmap _ os S_places (mkDumped 0x0506 0 (repeat 0 11) None)
     [icc_unit; mkDumped 0x0501 0 [1; 0; 0; 6; 12; 0; 16; 0; 0; 84] None] [] G eq_refl eq_refl (Forall_nil _)) as (x & X & _ & Sx).
  destruct (card_last no_charmap _ os S_app_id (mkDumped 0x0501 0 [1; 0; 0; 6; 12; 0; 16; 0; 0; 84] None)
     [icc_unit] [mkDumped 0x0506 0 (repeat 0 11) None] G eq_refl eq_refl) as (y & Y & _ & Sy).
  { constructor; [|constructor]. intros E. discriminate E. }
  exists no_charmap, short_places, (card_of os), S_places, x, None, 1%nat, 84.
  split; [exact V|]. split; [exact A|]. split; [exact Sx|]. split; [|split].
  - destruct (content_count no_charmap S_places _ x (length (ps_records x)) X eq_refl) as (h & k & Ly & _ & En).
    injection Ly as <- <-. cbn [held]. rewrite En. reflexivity.
  - cbn [declares]. rewrite Sy. vm_compute in Y. apply Ok_inj in Y. subst y. reflexivity.
  - change (Z.to_nat 84) with 84%nat. lia.
Qed.

(** A card that is as declared: the file has 1 + 84 * 10 bytes and 4 more. *)
Example C126_applies :
  Forall dumped_ok enough_places /\ exists c, accepted no_charmap enough_places c /\ as_declared c /\
    declares c S_places = Some 84.
Proof.
  destruct (driver_ok_accepted enough_places) as (V & c & A); [vm_compute; reflexivity|].
  split; [exact V|]. exists c. split; [exact A|].
  assert (D : declares c S_places = Some 84).
  { pose proof A as A'. apply accepted_iff in A' as (os & _ & _ & G & ->); [|exact V].
    destruct (card_last no_charmap _ os S_app_id (mkDumped 0x0501 0 [1; 0; 0; 6; 12; 0; 16; 0; 0; 84] None)
       [icc_unit] [mkDumped 0x0506 0 (repeat 0 845) None] G eq_refl eq_refl) as (y & Y & _ & Sy).
    { constructor; [|constructor]. intros E. discriminate E. }
    cbn [declares]. rewrite Sy. vm_compute in Y. apply Ok_inj in Y. subst y. reflexivity. }
  split; [|exact D]. apply (proj2 C126_numbers_partial no_charmap enough_places c V A).
  intros u s h k m I Fu Ly Dm. destruct I as [<-|[<-|[<-|[]]]]; cbn in Fu; injection Fu as <-; try discriminate Ly.
  injection Ly as <- <-. rewrite D in Dm. injection Dm as <-. exists 84%nat, 4%nat. split; [reflexivity|]. split; [lia|reflexivity].
Qed.
