(** Lemmas about the anonymisers. *)

From Coq Require Import String.
From Verif Require Import Base Enums DDScalar Chunks Utf8 DDString DDRecord CardRecords CardIdent Anonymize.
From Verif Require Import P_Scalar P_Basic Field P_Record P_Records.
Local Open Scope list_scope.

Lemma map_mapi {A B C D} (h : A -> B) (f : Z -> B -> C) (g : C -> D) l : forall i,
  map g (mapi_from f i (map h l)) = mapi_from (fun i x => g (f i (h x))) i l.
Proof. induction l as [|a l IH]; intros i; cbn; [reflexivity|]. now rewrite IH. Qed.

Lemma mapi_ext2 {A B} (R : A -> A -> Prop) (f : Z -> A -> B) l m : forall i,
  (forall j a b, R a b -> f j a = f j b) -> Forall2 R l m -> mapi_from f i l = mapi_from f i m.
Proof.
  intros i H F2; revert i; induction F2; intros i; cbn; [reflexivity|].
  erewrite H by eassumption. now rewrite IHF2.
Qed.

Lemma mapi_twice {A} (f : Z -> A -> A) l : forall i,
  (forall j a, f j (f j a) = f j a) -> mapi_from f i (mapi_from f i l) = mapi_from f i l.
Proof. intros i H; revert i; induction l as [|a l IH]; intros i; cbn; [reflexivity|]. now rewrite H, IH. Qed.

Lemma mapi_length {A B} (f : Z -> A -> B) l : forall i, length (mapi_from f i l) = length l.
Proof. induction l; intros i; cbn; auto. Qed.

(** ** Places *)

Lemma len10 (l : bytes) : length l = 10%nat ->
  exists a b c d e f g h i j, l = [a; b; c; d; e; f; g; h; i; j].
Proof.
  do 10 (destruct l as [|? l]; [discriminate|]). destruct l; [|discriminate]. intros _. do 10 eexists. reflexivity.
Qed.

Lemma len4 (l : bytes) : length l = 4%nat -> exists a b c d, l = [a; b; c; d].
Proof.
  do 4 (destruct l as [|? l]; [discriminate|]). destruct l; [|discriminate]. intros _. do 4 eexists. reflexivity.
Qed.

Lemma len3 (l : bytes) : length l = 3%nat -> exists a b c, l = [a; b; c].
Proof.
  do 3 (destruct l as [|? l]; [discriminate|]). destruct l; [|discriminate]. intros _. do 3 eexists. reflexivity.
Qed.

Lemma append_time_len o b : append_time o = Ok b -> length b = 4%nat.
Proof. unfold append_time. intros H. apply bind_ok in H as (u & _ & H). apply Ok_inj in H as <-. apply to_be_length. Qed.

Lemma odometer_len v : length (append_odometer v) = 3%nat.
Proof. unfold append_odometer. rewrite sub_length; [reflexivity|]. now rewrite to_be_length. Qed.

Definition place_bytes (t : bytes) (e : Z) (u : option Z) (odo : Z) : bytes :=
  t ++ [place_enum_byte entry_type_daily_work_period_table e u; 18; 1] ++ append_odometer odo.

Lemma append_place_eq raw t e u odo :
  raw = [] \/ length raw = 10%nat ->
  append_place (mkPlace raw t e u FINLAND None [1] odo) =
  let* b := append_time t in Ok (place_bytes b e u odo).
Proof.
  intros R. unfold append_place. cbn [pl_raw pl_time pl_entry pl_entry_unrecognized pl_country
    pl_country_unrecognized pl_region pl_odometer].
  assert (C : exists c, raw_canvas_nonempty 10 raw = Ok c /\ length c = 10%nat).
  { destruct R as [->|R]; [exists (zeros 10); auto|]. exists raw. split; [apply canvas_ok; [lia|exact R]|auto]. }
  destruct C as (c & -> & Lc). cbn [bind].
  destruct (append_time t) as [b| |] eqn:Et; cbn [bind]; try reflexivity.
  apply append_time_len in Et.
  destruct (len10 _ Lc) as (? & ? & ? & ? & ? & ? & ? & ? & ? & ? & ->).
  destruct (len4 _ Et) as (? & ? & ? & ? & ->).
  unfold place_bytes. destruct (len3 _ (odometer_len odo)) as (? & ? & ? & ->).
  replace (place_enum_byte nation_numeric_table FINLAND None) with 18 by reflexivity. reflexivity.
Qed.

Definition final_place (i : Z) (p : place) : place :=
  let t := stamp i (pl_time p) in
  let odo := Z.quot (pl_odometer p) 100 * 100 in
  mkPlace (place_bytes (to_be 4 (ts_seconds (odflt (mkTs 0 0) t))) (pl_entry p) (pl_entry_unrecognized p) odo)
          t (pl_entry p) (pl_entry_unrecognized p) FINLAND None [1] odo.

Lemma stamp_time i o : append_time (stamp i o) = Ok (to_be 4 (ts_seconds (odflt (mkTs 0 0) (stamp i o)))).
Proof. unfold stamp. destruct o; [reflexivity|]. destruct (i =? 0); reflexivity. Qed.

Lemma stamp_twice i o : stamp i (stamp i o) = stamp i o.
Proof. unfold stamp. destruct o; [reflexivity|]. destruct (i =? 0); reflexivity. Qed.

Lemma place_bytes_len t e u odo : length t = 4%nat -> length (place_bytes t e u odo) = 10%nat.
Proof. intros H. unfold place_bytes. rewrite !app_length, H, odometer_len. reflexivity. Qed.

Lemma final_place_eq i p :
  regenerate append_place set_place_raw (stamp_place i (anonymize_place p)) = final_place i p.
Proof.
  unfold anonymize_place at 1, regenerate at 2. rewrite append_place_eq by auto.
  set (odo := Z.quot _ _ * _).
  assert (W : exists raw, stamp_place i
      match (let* b := append_time (pl_time p) in Ok (place_bytes b (pl_entry p) (pl_entry_unrecognized p) odo)) with
      | Ok b => set_place_raw b (mkPlace [] (pl_time p) (pl_entry p) (pl_entry_unrecognized p) FINLAND None [1] odo)
      | _ => mkPlace [] (pl_time p) (pl_entry p) (pl_entry_unrecognized p) FINLAND None [1] odo
      end = mkPlace raw (stamp i (pl_time p)) (pl_entry p) (pl_entry_unrecognized p) FINLAND None [1] odo
      /\ (raw = [] \/ length raw = 10%nat)).
  { destruct (append_time (pl_time p)) as [b| |] eqn:E; cbn [bind]; eexists; (split; [reflexivity|]); auto.
    right. apply place_bytes_len. now apply append_time_len in E. }
  destruct W as (raw & -> & R). unfold regenerate. rewrite append_place_eq by exact R.
  rewrite stamp_time. reflexivity.
Qed.

Lemma quot_round v n : 0 < n -> Z.quot (Z.quot v n * n) n * n = Z.quot v n * n.
Proof. intros. now rewrite Z.quot_mul by lia. Qed.

Lemma final_place_twice i p : final_place i (final_place i p) = final_place i p.
Proof. unfold final_place at 1. cbn [pl_time pl_odometer pl_entry pl_entry_unrecognized final_place].
  rewrite stamp_twice, quot_round by lia. reflexivity. Qed.

Lemma anonymize_places_records x :
  exists b, anonymize_places x = mkPlaces b (ps_newest x) (mapi_from final_place 0 (ps_records x)).
Proof.
  unfold anonymize_places, mapi. rewrite map_mapi.
  assert (E : mapi_from (fun i p => regenerate append_place set_place_raw (stamp_place i (anonymize_place p)))
               0 (ps_records x) = mapi_from final_place 0 (ps_records x)).
  { generalize 0. induction (ps_records x) as [|p l IH]; intros i; [reflexivity|].
    cbn [mapi_from]. now rewrite final_place_eq, IH. }
  rewrite E. unfold regenerate.
  destruct (append_places _); eexists; reflexivity.
Qed.

Lemma final_place_append i p : append_place (final_place i p) = Ok (pl_raw (final_place i p)).
Proof.
  unfold final_place. rewrite append_place_eq.
  - rewrite stamp_time. reflexivity.
  - right. apply place_bytes_len, to_be_length.
Qed.

Lemma final_places_concat i l :
  concat_res append_place (mapi_from final_place i l) = Ok (concat (map pl_raw (mapi_from final_place i l))).
Proof.
  revert i; induction l as [|p l IH]; intros i; cbn; [reflexivity|].
  rewrite final_place_append. cbn [bind]. rewrite IH. reflexivity.
Qed.

Lemma anonymize_places_eq x :
  let rs := mapi_from final_place 0 (ps_records x) in
  anonymize_places x = mkPlaces (u8 (ps_newest x) :: concat (map pl_raw rs)) (ps_newest x) rs.
Proof.
  cbv zeta. unfold anonymize_places, mapi. rewrite map_mapi.
  assert (E : mapi_from (fun i p => regenerate append_place set_place_raw (stamp_place i (anonymize_place p)))
               0 (ps_records x) = mapi_from final_place 0 (ps_records x)).
  { generalize 0. induction (ps_records x) as [|p l IH]; intros i; [reflexivity|].
    cbn [mapi_from]. now rewrite final_place_eq, IH. }
  rewrite E. unfold regenerate, append_places, append_pointer_file. cbn [ps_raw ps_newest ps_records length].
  replace (0 =? _)%nat with false by (symmetry; apply Nat.eqb_neq; lia).
  rewrite final_places_concat. cbn [bind]. reflexivity.
Qed.

(** ** Second-generation places *)

Definition final_gnss (i : Z) (g : gnss_place) : gnss_place :=
  mkGP (match gp_time g with Some _ => Some (mkTs (TEST_EPOCH + i * 3600) 0) | None => None end)
       (gp_accuracy g) (Some (mkGeo 60100 24560)).

Definition final_place_g2 (i : Z) (p : place_g2) : place_g2 :=
  regenerate append_place_g2 set_place_g2_raw
    (mkPlace2 [] (stamp i (pl2_time p)) (pl2_entry p) (pl2_entry_unrecognized p)
              FINLAND None [1] (Z.quot (pl2_odometer p) 100 * 100)
              (option_map (final_gnss i) (pl2_gnss p))).

Lemma final_place_g2_eq i p :
  regenerate append_place_g2 set_place_g2_raw (stamp_place_g2 i (anonymize_place_g2 p)) = final_place_g2 i p.
Proof.
  unfold final_place_g2. f_equal. unfold stamp_place_g2, anonymize_place_g2. cbn [pl2_raw pl2_time pl2_entry pl2_entry_unrecognized pl2_country pl2_country_unrecognized pl2_region pl2_odometer pl2_gnss].
  f_equal. destruct (pl2_gnss p) as [g|]; reflexivity.
Qed.

Lemma final_gnss_twice i g : final_gnss i (final_gnss i g) = final_gnss i g.
Proof. unfold final_gnss. cbn [gp_time gp_accuracy]. destruct (gp_time g); reflexivity. Qed.

Lemma regenerate_fields {X} (g : place_g2 -> X) r :
  (forall b p, g (set_place_g2_raw b p) = g p) ->
  g (regenerate append_place_g2 set_place_g2_raw r) = g r.
Proof. intros H. unfold regenerate. destruct (append_place_g2 r); auto. Qed.

Lemma final_place_g2_twice i p : final_place_g2 i (final_place_g2 i p) = final_place_g2 i p.
Proof.
  unfold final_place_g2.
  rewrite (regenerate_fields pl2_time) by reflexivity.
  rewrite (regenerate_fields pl2_entry) by reflexivity.
  rewrite (regenerate_fields pl2_entry_unrecognized) by reflexivity.
  rewrite (regenerate_fields pl2_odometer) by reflexivity.
  rewrite (regenerate_fields pl2_gnss) by reflexivity.
  cbn [pl2_time pl2_entry pl2_entry_unrecognized pl2_odometer pl2_gnss].
  rewrite stamp_twice, quot_round by lia. f_equal. f_equal.
  destruct (pl2_gnss p) as [g|]; [|reflexivity]. cbn [option_map]. now rewrite final_gnss_twice.
Qed.

Lemma anonymize_places_g2_eq x :
  anonymize_places_g2 x =
  regenerate (fun p => append_places_g2 (Some p))
    (fun b p => mkPlaces2 b (ps2_newest p) (ps2_records p))
    (mkPlaces2 [] (ps2_newest x) (mapi_from final_place_g2 0 (ps2_records x))).
Proof.
  unfold anonymize_places_g2, mapi. rewrite map_mapi. f_equal. f_equal.
  generalize 0. induction (ps2_records x) as [|p l IH]; intros i; [reflexivity|].
  cbn [mapi_from]. now rewrite final_place_g2_eq, IH.
Qed.

(** ** Reading anonymised places back *)

Lemma time_back v : 0 < v < 4294967296 -> unmarshal_time (to_be 4 v) = Ok (Some (mkTs v 0)).
Proof.
  intros H. unfold unmarshal_time. rewrite to_be_length. cbn [Nat.eqb guard bind].
  rewrite be_to_be. change (256 ^ Z.of_nat 4) with 4294967296. rewrite Z.mod_small by lia.
  destruct (Z.eqb_spec v 0); [lia|reflexivity].
Qed.

Lemma stamp_back i o :
  0 <= i < 700000 -> unmarshal_time (to_be 4 (ts_seconds (odflt (mkTs 0 0) (stamp i o)))) = Ok (stamp i o).
Proof.
  intros H. unfold stamp.
  assert (E : unmarshal_time (to_be 4 (TEST_EPOCH + i * 3600)) = Ok (Some (mkTs (TEST_EPOCH + i * 3600) 0)))
    by (apply time_back; unfold TEST_EPOCH; lia).
  destruct o as [t|]; [exact E|]. destruct (i =? 0); [exact E|reflexivity].
Qed.

Lemma odometer_value v : 0 <= v < 16777216 -> be (append_odometer v) = v.
Proof.
  intros H. unfold append_odometer.
  assert (E : sub (to_be 4 v) 1 3 = to_be 3 v) by reflexivity.
  rewrite E, be_to_be. apply Z.mod_small. exact H.
Qed.

Lemma unmarshal_place_cat t e c r o :
  length t = 4%nat -> length o = 3%nat ->
  unmarshal_place (t ++ [e; c; r] ++ o) =
  let* tm := unmarshal_time t in
  let x := unmarshal_enum_or_unrecognized entry_type_daily_work_period_table e in
  let n := unmarshal_enum_or_unrecognized nation_numeric_table c in
  Ok (mkPlace (t ++ [e; c; r] ++ o) tm (fst x) (snd x) (fst n) (snd n) [r] (be o)).
Proof.
  intros Lt Lo. destruct (len4 _ Lt) as (? & ? & ? & ? & ->). destruct (len3 _ Lo) as (? & ? & ? & ->).
  reflexivity.
Qed.

Lemma place_parsed c p : bytes_ok c -> unmarshal_place c = Ok p ->
  (exists b, byte_ok b /\ (pl_entry p, pl_entry_unrecognized p) =
     unmarshal_enum_or_unrecognized entry_type_daily_work_period_table b) /\
  0 <= pl_odometer p < 16777216.
Proof.
  intros H E. unfold unmarshal_place in E. apply bind_ok in E as (u & G & E). apply guard_ok in G.
  apply Nat.eqb_eq in G. apply bind_ok in E as (t & _ & E). apply Ok_inj in E as <-.
  cbn [pl_entry pl_entry_unrecognized pl_odometer]. split.
  - exists (nth 4 c 0). split; [apply nth_byte_ok; auto; lia|]. now rewrite <- surjective_pairing.
  - pose proof (be_range (sub c 7 3) (bytes_ok_sub _ _ _ H)) as R. rewrite sub_length in R by lia. exact R.
Qed.

Lemma quot_round_range v n m : 0 < n -> 0 <= v < m -> 0 <= Z.quot v n * n < m.
Proof. intros N H. rewrite Z.quot_div_nonneg by lia.
  pose proof (Z.mul_div_le v n N). pose proof (Z.div_pos v n). nia. Qed.

Lemma final_place_back i p :
  (exists b, byte_ok b /\ (pl_entry p, pl_entry_unrecognized p) =
     unmarshal_enum_or_unrecognized entry_type_daily_work_period_table b) ->
  0 <= pl_odometer p < 16777216 -> 0 <= i < 700000 ->
  unmarshal_place (pl_raw (final_place i p)) = Ok (final_place i p).
Proof.
  intros (b & Hb & Eb) Ho Hi. unfold final_place. cbn [pl_raw].
  set (t := stamp i (pl_time p)). set (odo := Z.quot (pl_odometer p) 100 * 100).
  unfold place_bytes at 1.
  assert (B : place_enum_byte entry_type_daily_work_period_table (pl_entry p) (pl_entry_unrecognized p) = b).
  { pose proof (place_enum_back entry_type_daily_work_period_table b) as K. rewrite <- Eb in K.
    apply K; auto. now repeat (try (left; reflexivity); right). }
  rewrite unmarshal_place_cat by (apply to_be_length || apply odometer_len).
  unfold t at 1. rewrite stamp_back by exact Hi. cbn [bind]. rewrite B, <- Eb.
  cbv zeta. cbn [fst snd]. rewrite odometer_value by (apply quot_round_range; lia).
  replace (unmarshal_enum_or_unrecognized nation_numeric_table 18) with (FINLAND, @None Z) by reflexivity.
  unfold place_bytes. rewrite B. reflexivity.
Qed.

Lemma final_place_raw_len i p : length (pl_raw (final_place i p)) = 10%nat.
Proof. apply place_bytes_len, to_be_length. Qed.

Lemma mapi_Forall {A B} (P : A -> Prop) (Q : B -> Prop) (f : Z -> A -> B) l : forall i m,
  Forall P l -> 0 <= i -> i + Z.of_nat (length l) <= m ->
  (forall j a, 0 <= j < m -> P a -> Q (f j a)) -> Forall Q (mapi_from f i l).
Proof.
  induction l as [|a l IH]; intros i m H I L K; cbn [mapi_from]; [constructor|].
  apply Forall_cons_iff in H as [H1 H2]. cbn [length] in L.
  constructor; [apply K; auto; lia|]. apply (IH (i + 1) m); auto; lia.
Qed.

Definition place_entry_known (e : Z * option Z) : Prop :=
  exists b, byte_ok b /\ e = unmarshal_enum_or_unrecognized entry_type_daily_work_period_table b.

Lemma chunks_parsed {X} (un : bytes -> res X) ap n dflt (P : X -> Prop) l :
  implements un ap (f_id n) -> (0 < n)%nat -> bytes_ok l ->
  (forall c x, bytes_ok c -> un c = Ok x -> P x) ->
  Forall P (map (fun c => match un c with Ok x => x | _ => dflt c end) (chunks n l)).
Proof.
  intros I N H K. rewrite Forall_map. apply Forall_forall. intros c Ic.
  pose proof (chunks_ok n l N H) as HO. pose proof (chunks_each n l N) as HL.
  rewrite Forall_forall in HO, HL.
  destruct (implements_id_ok un ap n c I (HO c Ic) (HL c Ic)) as (x & E & _). rewrite E.
  apply (K c); auto.
Qed.

Lemma places_parsed d x : bytes_ok d -> unmarshal_places d = Ok x ->
  byte_ok (ps_newest x) /\ length (ps_records x) = ((length d - 1) / 10)%nat /\
  Forall (fun p => place_entry_known (pl_entry p, pl_entry_unrecognized p) /\
     0 <= pl_odometer p < 16777216) (ps_records x).
Proof.
  intros H E. unfold unmarshal_places in E. apply bind_ok in E as (u & G & E). apply guard_ok in G.
  apply Ok_inj in E as <-. cbn [ps_newest ps_records].
  destruct (Nat.ltb_spec (length d) 1); [discriminate|]. split; [apply nth_byte_ok; auto; lia|].
  split; [rewrite map_length, chunks_count, skipn_length; reflexivity|].
  apply (chunks_parsed _ append_place); [apply place_implements|lia|now apply bytes_ok_skipn|].
  intros c p Hc E. now apply (place_parsed c).
Qed.

Lemma concat_length_map {A} (f : A -> bytes) n l :
  Forall (fun a => length (f a) = n) l -> length (concat (map f l)) = (length l * n)%nat.
Proof. intros H. rewrite (concat_length_uniform n); [now rewrite map_length|]. now rewrite Forall_map. Qed.

Lemma u8_byte b : byte_ok b -> u8 b = b.
Proof. intros H. unfold u8. apply Z.mod_small. exact H. Qed.

Lemma map_un {A} (un : bytes -> res A) (raw : A -> bytes) (dflt : bytes -> A) l :
  Forall (fun a => un (raw a) = Ok a) l ->
  map (fun c => match un c with Ok p => p | _ => dflt c end) (map raw l) = l.
Proof. induction 1 as [|a l E H IH]; cbn [map]; [reflexivity|]. now rewrite E, IH. Qed.

Lemma places_back d x :
  bytes_ok d -> Z.of_nat (length d) <= 7000000 -> unmarshal_places d = Ok x ->
  unmarshal_places (ps_raw (anonymize_places x)) = Ok (anonymize_places x).
Proof.
  intros H L E. destruct (places_parsed d x H E) as (N & C & R). rewrite anonymize_places_eq.
  cbn [ps_raw]. set (rs := mapi_from final_place 0 (ps_records x)).
  assert (Lr : Forall (fun a => length (pl_raw a) = 10%nat) rs).
  { apply (mapi_Forall (fun _ => True) _ _ _ 0 (Z.of_nat (length (ps_records x)))); try lia.
    - apply Forall_forall. auto.
    - intros j a _ _. apply final_place_raw_len. }
  assert (U : Forall (fun a => unmarshal_place (pl_raw a) = Ok a) rs).
  { apply (mapi_Forall (fun p => place_entry_known (pl_entry p, pl_entry_unrecognized p) /\
       0 <= pl_odometer p < 16777216) _ _ _ 0 700000); auto; try lia.
    intros j a J [A1 A2]. apply final_place_back; auto. }
  unfold unmarshal_places. cbn [length Nat.ltb Nat.leb negb guard bind nth skipn].
  rewrite chunks_concat by (lia || now rewrite Forall_map).
  rewrite map_un by exact U. now rewrite u8_byte.
Qed.

Lemma append_pointer_same {A} (ap : A -> res bytes) (raw : A -> bytes) size pointer rs :
  Forall (fun a => ap a = Ok (raw a)) rs -> Forall (fun a => length (raw a) = size) rs ->
  append_pointer_file ap size pointer (pointer ++ concat (map raw rs)) rs = Ok (pointer ++ concat (map raw rs)).
Proof.
  intros H L. unfold append_pointer_file.
  rewrite app_length, (concat_length_map raw size) by auto. rewrite Nat.eqb_refl.
  apply paint_records_ok.
  - rewrite copy_into_length; rewrite ?app_length, ?(concat_length_map raw size) by auto; lia.
  - exists (map raw rs).
    assert (C : copy_into (pointer ++ concat (map raw rs)) 0 (length pointer) pointer = pointer ++ concat (map raw rs)).
    { rewrite copy_into_eq by (rewrite ?app_length; lia). cbn [firstn List.app Nat.add].
      f_equal. rewrite skipn_app, skipn_all, Nat.sub_diag. reflexivity. }
    rewrite C. split; [|split].
    + clear L C. induction H; cbn [map]; constructor; auto.
    + now rewrite Forall_map.
    + rewrite firstn_app, firstn_all, Nat.sub_diag, firstn_O, app_nil_r.
      rewrite skipn_all2; [now rewrite app_nil_r|].
      rewrite app_length, (concat_length_map raw size) by auto. lia.
Qed.

Lemma places_write x : append_places (Some (anonymize_places x)) = Ok (ps_raw (anonymize_places x)).
Proof.
  rewrite anonymize_places_eq. cbn [append_places ps_raw ps_newest ps_records].
  set (rs := mapi_from final_place 0 (ps_records x)).
  apply (append_pointer_same append_place pl_raw 10 [u8 (ps_newest x)] rs).
  - apply (mapi_Forall (fun _ => True) _ _ _ 0 (Z.of_nat (length (ps_records x)))); try lia.
    + apply Forall_forall. auto.
    + intros j a _ _. apply final_place_append.
  - apply (mapi_Forall (fun _ => True) _ _ _ 0 (Z.of_nat (length (ps_records x)))); try lia.
    + apply Forall_forall. auto.
    + intros j a _ _. apply final_place_raw_len.
Qed.

(** ** Second-generation places, written and read back *)

Lemma len11 (l : bytes) : length l = 11%nat ->
  exists a b c d e f g h i j k, l = [a; b; c; d; e; f; g; h; i; j; k].
Proof.
  do 11 (destruct l as [|? l]; [discriminate|]). destruct l; [|discriminate]. intros _. do 11 eexists. reflexivity.
Qed.

Lemma append_geo_len o : length (append_geo o) = 6%nat.
Proof. reflexivity. Qed.

Lemma append_gnss_len o b : append_gnss_place o = Ok b -> length b = 11%nat.
Proof.
  unfold append_gnss_place. destruct o as [r|]; intros H.
  - apply bind_ok in H as (t & Et & H). apply bind_ok in H as (u & _ & H). apply Ok_inj in H as <-.
    rewrite !app_length, (append_time_len _ _ Et), append_geo_len. reflexivity.
  - apply Ok_inj in H as <-. reflexivity.
Qed.

Lemma append_place_g2_eq raw t e u odo g :
  raw = [] \/ length raw = 21%nat ->
  append_place_g2 (mkPlace2 raw t e u FINLAND None [1] odo g) =
  let* b := append_time t in let* gb := append_gnss_place g in Ok (place_bytes b e u odo ++ gb).
Proof.
  intros R. unfold append_place_g2. cbn [pl2_raw pl2_time pl2_entry pl2_entry_unrecognized pl2_country
    pl2_country_unrecognized pl2_region pl2_odometer pl2_gnss].
  assert (C : exists c, raw_canvas_nonempty 21 raw = Ok c /\ length c = 21%nat).
  { destruct R as [->|R]; [exists (zeros 21); auto|]. exists raw. split; [apply canvas_ok; [lia|exact R]|auto]. }
  destruct C as (c & -> & Lc). cbn [bind].
  destruct (append_time t) as [b| |] eqn:Et; cbn [bind]; try reflexivity.
  apply append_time_len in Et.
  destruct (append_gnss_place g) as [gb| |] eqn:Eg; cbn [bind]; try reflexivity.
  apply append_gnss_len in Eg.
  replace (place_enum_byte nation_numeric_table FINLAND None) with 18 by reflexivity.
  rewrite <- (firstn_skipn 10 c). assert (L1 : length (firstn 10 c) = 10%nat) by (rewrite firstn_length; lia).
  assert (L2 : length (skipn 10 c) = 11%nat) by (rewrite skipn_length; lia).
  destruct (len10 _ L1) as (? & ? & ? & ? & ? & ? & ? & ? & ? & ? & ->).
  destruct (len4 _ Et) as (? & ? & ? & ? & ->).
  unfold place_bytes. destruct (len3 _ (odometer_len odo)) as (? & ? & ? & ->).
  destruct (len11 _ L2) as (? & ? & ? & ? & ? & ? & ? & ? & ? & ? & ? & ->).
  destruct (len11 _ Eg) as (? & ? & ? & ? & ? & ? & ? & ? & ? & ? & ? & ->).
  reflexivity.
Qed.

Lemma append_gnss_final i g :
  0 <= gp_accuracy g <= 255 -> exists b, append_gnss_place (Some (final_gnss i g)) = Ok b.
Proof.
  intros H. cbn [append_gnss_place final_gnss gp_time gp_accuracy gp_geo].
  assert (T : exists b, append_time (match gp_time g with Some _ => Some (mkTs (TEST_EPOCH + i * 3600) 0) | None => None end) = Ok b).
  { destruct (gp_time g); eexists; reflexivity. }
  destruct T as (b & ->). cbn [bind].
  replace ((gp_accuracy g <? 0) || (gp_accuracy g >? 255)) with false by lia. eexists. reflexivity.
Qed.

Lemma gnss_back i g b :
  0 <= gp_accuracy g <= 255 -> 0 <= i < 700000 ->
  append_gnss_place (Some (final_gnss i g)) = Ok b -> unmarshal_gnss_place b = Ok (final_gnss i g).
Proof.
  intros H I E. cbn [append_gnss_place final_gnss gp_time gp_accuracy gp_geo] in E.
  apply bind_ok in E as (t & Et & E). apply bind_ok in E as (u & _ & E). apply Ok_inj in E.
  assert (Ut : unmarshal_time t = Ok (gp_time (final_gnss i g))).
  { unfold final_gnss. cbn [gp_time]. revert Et. destruct (gp_time g); intros Et; apply Ok_inj in Et as <-.
    - apply time_back. cbn [ts_seconds odflt]. unfold TEST_EPOCH. lia.
    - reflexivity. }
  apply append_time_len in Et. destruct (len4 _ Et) as (? & ? & ? & ? & ->).
  change (append_geo (Some (mkGeo 60100 24560))) with [0; 234; 196; 0; 95; 240] in E.
  rewrite u8_byte in E by (split; lia). subst b. unfold unmarshal_gnss_place.
  cbn [length List.app Nat.eqb guard bind sub skipn firstn nth]. rewrite Ut. reflexivity.
Qed.

Lemma unmarshal_place_g2_cat t e c r o g :
  length t = 4%nat -> length o = 3%nat -> length g = 11%nat ->
  unmarshal_place_g2 ((t ++ [e; c; r] ++ o) ++ g) =
  let* tm := unmarshal_time t in
  let x := unmarshal_enum_or_unrecognized entry_type_daily_work_period_table e in
  let n := unmarshal_enum_or_unrecognized nation_numeric_table c in
  let* gn := unmarshal_gnss_place g in
  Ok (mkPlace2 ((t ++ [e; c; r] ++ o) ++ g) tm (fst x) (snd x) (fst n) (snd n) [r] (be o) (Some gn)).
Proof.
  intros Lt Lo Lg. destruct (len4 _ Lt) as (? & ? & ? & ? & ->). destruct (len3 _ Lo) as (? & ? & ? & ->).
  unfold unmarshal_place_g2. rewrite !app_length, Lg. cbn [length Nat.add Nat.eqb guard bind].
  replace (sub _ 10 11) with g; [reflexivity|]. unfold sub. cbn [List.app skipn].
  now rewrite firstn_all2 by lia.
Qed.

Definition place_g2_ok (p : place_g2) : Prop :=
  place_entry_known (pl2_entry p, pl2_entry_unrecognized p) /\ 0 <= pl2_odometer p < 16777216 /\
  exists g, pl2_gnss p = Some g /\ 0 <= gp_accuracy g <= 255.

Lemma place_g2_parsed c p : bytes_ok c -> unmarshal_place_g2 c = Ok p -> place_g2_ok p.
Proof.
  intros H E. unfold unmarshal_place_g2 in E. apply bind_ok in E as (u & G & E). apply guard_ok in G.
  apply Nat.eqb_eq in G. apply bind_ok in E as (t & _ & E). apply bind_ok in E as (g & Eg & E).
  apply Ok_inj in E as <-. unfold place_g2_ok. cbn [pl2_entry pl2_entry_unrecognized pl2_odometer pl2_gnss].
  split; [|split].
  - exists (nth 4 c 0). split; [apply nth_byte_ok; auto; lia|]. now rewrite <- surjective_pairing.
  - pose proof (be_range (sub c 7 3) (bytes_ok_sub _ _ _ H)) as R. rewrite sub_length in R by lia. exact R.
  - exists g. split; [reflexivity|]. unfold unmarshal_gnss_place in Eg.
    apply bind_ok in Eg as (u1 & _ & Eg). apply bind_ok in Eg as (t1 & _ & Eg). apply bind_ok in Eg as (g1 & _ & Eg).
    apply Ok_inj in Eg as <-. cbn [gp_accuracy]. rewrite nth_sub by lia.
    pose proof (nth_byte_ok c 14 H ltac:(lia)) as K. unfold byte_ok in K. cbn [Nat.add]. lia.
Qed.

Lemma final_place_g2_props i p :
  place_g2_ok p -> 0 <= i < 700000 ->
  append_place_g2 (final_place_g2 i p) = Ok (pl2_raw (final_place_g2 i p)) /\
  length (pl2_raw (final_place_g2 i p)) = 21%nat /\
  unmarshal_place_g2 (pl2_raw (final_place_g2 i p)) = Ok (final_place_g2 i p).
Proof.
  intros ((b & Hb & Eb) & Ho & g & Eg & Hg) Hi. unfold final_place_g2. rewrite Eg. cbn [option_map].
  destruct (append_gnss_final i g Hg) as (gb & Egb). pose proof (append_gnss_len _ _ Egb) as Lg.
  pose proof (gnss_back i g gb Hg Hi Egb) as Ug.
  unfold regenerate. rewrite append_place_g2_eq by auto. rewrite stamp_time. cbn [bind]. rewrite Egb. cbn [bind].
  unfold set_place_g2_raw. cbn [pl2_raw pl2_time pl2_entry pl2_entry_unrecognized pl2_country
    pl2_country_unrecognized pl2_region pl2_odometer pl2_gnss].
  set (odo := Z.quot (pl2_odometer p) 100 * 100).
  assert (L : length (place_bytes (to_be 4 (ts_seconds (odflt (mkTs 0 0) (stamp i (pl2_time p)))))
    (pl2_entry p) (pl2_entry_unrecognized p) odo ++ gb) = 21%nat).
  { rewrite app_length, place_bytes_len by apply to_be_length. rewrite Lg. reflexivity. }
  split; [|split; [exact L|]].
  - rewrite append_place_g2_eq by (right; exact L). rewrite stamp_time. cbn [bind]. rewrite Egb. reflexivity.
  - assert (B : place_enum_byte entry_type_daily_work_period_table (pl2_entry p) (pl2_entry_unrecognized p) = b).
    { pose proof (place_enum_back entry_type_daily_work_period_table b) as K. rewrite <- Eb in K.
      apply K; auto. now repeat (try (left; reflexivity); right). }
    unfold place_bytes at 1.
    rewrite unmarshal_place_g2_cat by (apply to_be_length || apply odometer_len || exact Lg).
    rewrite stamp_back by exact Hi. cbn [bind]. rewrite B, <- Eb. cbv zeta. cbn [fst snd].
    rewrite Ug. cbn [bind]. rewrite odometer_value by (apply quot_round_range; lia).
    replace (unmarshal_enum_or_unrecognized nation_numeric_table 18) with (FINLAND, @None Z) by reflexivity.
    unfold place_bytes. rewrite B. reflexivity.
Qed.

Lemma places_g2_parsed d x : bytes_ok d -> unmarshal_places_g2 d = Ok x ->
  0 <= ps2_newest x < 65536 /\ length (ps2_records x) = ((length d - 2) / 21)%nat /\
  Forall place_g2_ok (ps2_records x).
Proof.
  intros H E. unfold unmarshal_places_g2 in E. apply bind_ok in E as (u & G & E). apply guard_ok in G.
  apply Ok_inj in E as <-. cbn [ps2_newest ps2_records].
  destruct (Nat.ltb_spec (length d) 2); [discriminate|]. split.
  { pose proof (be_range (sub d 0 2) (bytes_ok_sub _ _ _ H)) as R. rewrite sub_length in R by lia. exact R. }
  split; [rewrite map_length, chunks_count, skipn_length; reflexivity|].
  apply (chunks_parsed _ append_place_g2); [apply place_g2_implements|lia|now apply bytes_ok_skipn|].
  intros c p Hc E. now apply (place_g2_parsed c).
Qed.

Lemma concat_res_raw {A} (ap : A -> res bytes) raw rs :
  Forall (fun a => ap a = Ok (raw a)) rs -> concat_res ap rs = Ok (concat (map raw rs)).
Proof. induction 1 as [|a l E H IH]; cbn [concat_res map concat]; [reflexivity|]. now rewrite E, IH. Qed.

Lemma append_pointer_fresh {A} (ap : A -> res bytes) raw size pointer rs :
  (0 < length pointer)%nat -> Forall (fun a => ap a = Ok (raw a)) rs ->
  append_pointer_file ap size pointer [] rs = Ok (pointer ++ concat (map raw rs)).
Proof.
  intros P H. unfold append_pointer_file. cbn [length].
  replace (0 =? _)%nat with false by (symmetry; apply Nat.eqb_neq; lia).
  rewrite (concat_res_raw ap raw) by exact H. reflexivity.
Qed.

Lemma places_g2_back d x :
  bytes_ok d -> Z.of_nat (length d) <= 7000000 -> unmarshal_places_g2 d = Ok x ->
  append_places_g2 (Some (anonymize_places_g2 x)) = Ok (ps2_raw (anonymize_places_g2 x)) /\
  length (ps2_raw (anonymize_places_g2 x)) = (2 + (length d - 2) / 21 * 21)%nat /\
  unmarshal_places_g2 (ps2_raw (anonymize_places_g2 x)) = Ok (anonymize_places_g2 x).
Proof.
  intros H L E. destruct (places_g2_parsed d x H E) as (N & C & R). rewrite anonymize_places_g2_eq.
  set (rs := mapi_from final_place_g2 0 (ps2_records x)).
  assert (A : Forall (fun p => append_place_g2 p = Ok (pl2_raw p) /\ length (pl2_raw p) = 21%nat /\
                       unmarshal_place_g2 (pl2_raw p) = Ok p) rs).
  { apply (mapi_Forall place_g2_ok _ _ _ 0 700000); auto; try lia.
    intros j a J Pa. now apply final_place_g2_props. }
  apply Forall_and_inv in A as [A1 A2]. apply Forall_and_inv in A2 as [A2 A3].
  unfold regenerate. cbn [append_places_g2 ps2_raw ps2_newest ps2_records].
  rewrite (append_pointer_fresh append_place_g2 pl2_raw) by (auto; rewrite to_be_length; lia).
  cbn [append_places_g2 ps2_raw ps2_newest ps2_records]. split; [|split].
  - apply (append_pointer_same append_place_g2 pl2_raw 21); auto.
  - rewrite app_length, to_be_length, (concat_length_map pl2_raw 21) by auto.
    unfold rs. rewrite mapi_length, C. reflexivity.
  - unfold u16. rewrite Z.mod_small by exact N. unfold unmarshal_places_g2.
    rewrite app_length, to_be_length. cbn [Nat.add Nat.ltb Nat.leb negb guard bind].
    replace (skipn 2 (to_be 2 (ps2_newest x) ++ concat (map pl2_raw rs))) with (concat (map pl2_raw rs)) by reflexivity.
    rewrite sub_app_l by apply to_be_length.
    rewrite chunks_concat by (lia || now rewrite Forall_map).
    rewrite map_un by exact A3. rewrite be_to_be. change (256 ^ Z.of_nat 2) with 65536.
    now rewrite Z.mod_small by exact N.
Qed.

(** ** Vehicles *)

Lemma anonymize_vehicle_fields {X} (g : card_vehicle -> X) r :
  (forall b p, g (set_vehicle_raw b p) = g p) ->
  g (regenerate append_card_vehicle set_vehicle_raw r) = g r.
Proof. intros H. unfold regenerate. destruct (append_card_vehicle r); auto. Qed.

Lemma option_map_map {A B C} (g : B -> C) (f : A -> B) o :
  option_map g (option_map f o) = option_map (fun x => g (f x)) o.
Proof. destruct o; reflexivity. Qed.

Lemma anonymize_vehicle_twice i r :
  anonymize_vehicle i (anonymize_vehicle i r) = anonymize_vehicle i r.
Proof.
  unfold anonymize_vehicle.
  rewrite (anonymize_vehicle_fields cv_odo_begin) by reflexivity.
  rewrite (anonymize_vehicle_fields cv_odo_end) by reflexivity.
  rewrite (anonymize_vehicle_fields cv_reg) by reflexivity.
  rewrite (anonymize_vehicle_fields cv_counter) by reflexivity.
  cbn [cv_odo_begin cv_odo_end cv_reg cv_counter].
  rewrite !quot_round, option_map_map by lia. reflexivity.
Qed.

Lemma paint_at (a b c : bytes) i j s :
  length a = i -> length b = (j - i)%nat -> length s = (j - i)%nat ->
  copy_into (a ++ b ++ c) i j s = a ++ s ++ c.
Proof.
  intros La Lb Ls. unfold copy_into. rewrite Ls, Nat.min_id.
  rewrite firstn_app, La, Nat.sub_diag, firstn_O, app_nil_r, firstn_all2 by lia.
  f_equal. rewrite (firstn_all2 s) by lia. f_equal.
  rewrite app_assoc, skipn_app, skipn_all2 by (rewrite app_length; lia).
  rewrite app_length, La, Lb, Nat.sub_diag. reflexivity.
Qed.

Lemma append_vehicle_eq raw ob oe f l v c tf tl vb cb :
  raw = [] \/ length raw = 31%nat ->
  append_time f = Ok tf -> append_time l = Ok tl ->
  append_vreg v = Ok vb -> length vb = 15%nat -> append_bcd_string c = Ok cb -> length cb = 2%nat ->
  append_card_vehicle (mkCV raw ob oe f l v c) =
  Ok (append_odometer ob ++ append_odometer oe ++ tf ++ tl ++ vb ++ cb).
Proof.
  intros R Ef El Ev Lv Ec Lc. unfold append_card_vehicle.
  cbn [cv_raw cv_odo_begin cv_odo_end cv_first_use cv_last_use cv_reg cv_counter].
  assert (C : exists k, raw_canvas_nonempty 31 raw = Ok k /\ length k = 31%nat).
  { destruct R as [->|R]; [exists (zeros 31); auto|]. exists raw. split; [apply canvas_ok; [lia|exact R]|auto]. }
  destruct C as (k & -> & Lk). cbn [bind]. rewrite Ef, El, Ev, Ec. cbn [bind].
  apply append_time_len in Ef. apply append_time_len in El. f_equal.
  pose proof (odometer_len ob) as L1. pose proof (odometer_len oe) as L2.
  assert (K : k = firstn 0 k ++ sub k 0 3 ++ sub k 3 3 ++ sub k 6 4 ++ sub k 10 4 ++ sub k 14 15 ++ skipn 29 k).
  { change k with (skipn 0 k) at 1. rewrite (skipn_sub k 0 3), (skipn_sub k (0 + 3) 3),
      (skipn_sub k (0 + 3 + 3) 4), (skipn_sub k (0 + 3 + 3 + 4) 4), (skipn_sub k (0 + 3 + 3 + 4 + 4) 15) by lia.
    reflexivity. }
  assert (Lt : length (skipn 29 k) = 2%nat) by (rewrite skipn_length; lia).
  rewrite K at 1.
  rewrite (paint_at (firstn 0 k) (sub k 0 3) _ 0 3) by (rewrite ?sub_length by lia; auto; lia).
  change (firstn 0 k ++ append_odometer ob ++ ?x) with (append_odometer ob ++ x).
  rewrite (paint_at (append_odometer ob) (sub k 3 3) _ 3 6) by (rewrite ?sub_length; lia).
  rewrite (app_assoc (append_odometer ob)).
  rewrite (paint_at _ (sub k 6 4) _ 6 10) by (rewrite ?app_length, ?sub_length; lia).
  rewrite (app_assoc (_ ++ _) tf).
  rewrite (paint_at _ (sub k 10 4) _ 10 14) by (rewrite ?app_length, ?sub_length; lia).
  rewrite (app_assoc (_ ++ _) tl).
  rewrite (paint_at _ (sub k 14 15) _ 14 29) by (rewrite ?app_length, ?sub_length; lia).
  rewrite (app_assoc (_ ++ _) vb).
  rewrite <- (app_nil_r (skipn 29 k)).
  rewrite (paint_at _ (skipn 29 k) [] 29 31) by (rewrite ?app_length, ?Lt, ?sub_length; lia).
  rewrite app_nil_r, <- !app_assoc. reflexivity.
Qed.

(** The registration written for an anonymised vehicle. *)
Definition test_vrn : bytes := [1; 84; 69; 83; 84; 45; 86; 82; 78; 32; 32; 32; 32; 32].

Lemma anonymize_vreg_append v b :
  unmarshal_enum nation_numeric_table b = Ok (vr_nation v) ->
  append_vreg (Some (anonymize_vreg v)) = Ok (b :: test_vrn).
Proof.
  intros E. unfold append_vreg, anonymize_vreg. cbn [vr_nation vr_number].
  destruct (unmarshal_enum_coded nation_numeric_table b (vr_nation v) eq_refl E) as [_ N].
  destruct (Z.eqb_spec (vr_nation v) ENUM_UNRECOGNIZED); [contradiction|].
  rewrite (marshal_unmarshal_enum nation_numeric_table b) by (reflexivity || exact E).
  reflexivity.
Qed.

Lemma test_vrn_back cm b :
  exists s, unmarshal_string_value cm test_vrn = Ok s /\
    unmarshal_vreg cm (b :: test_vrn) =
    Ok (mkVR (match unmarshal_enum nation_numeric_table b with Ok n => n | _ => ENUM_UNRECOGNIZED end) (Some s)).
Proof. eexists. split; reflexivity. Qed.

Definition vehicle_ok (r : card_vehicle) : Prop :=
  0 <= cv_odo_begin r < 16777216 /\ 0 <= cv_odo_end r < 16777216 /\
  (exists v b, cv_reg r = Some v /\ byte_ok b /\ unmarshal_enum nation_numeric_table b = Ok (vr_nation v)) /\
  (exists c s, cv_counter r = Some s /\ bytes_ok c /\ length c = 2%nat /\ unmarshal_bcd_string c = Ok s).

Lemma vehicle_parsed cm c r :
  bytes_ok c -> unmarshal_card_vehicle cm c = Ok r ->
  (forall v, cv_reg r = Some v -> vr_nation v <> ENUM_UNRECOGNIZED) -> vehicle_ok r.
Proof.
  intros H E K. unfold unmarshal_card_vehicle in E. apply bind_ok in E as (u & G & E). apply guard_ok in G.
  apply Nat.eqb_eq in G. apply bind_ok in E as (f & _ & E). apply bind_ok in E as (l & _ & E).
  apply bind_ok in E as (v & Ev & E). apply bind_ok in E as (k & Ek & E). apply Ok_inj in E as <-.
  unfold vehicle_ok. cbn [cv_odo_begin cv_odo_end cv_reg cv_counter] in *.
  split; [|split; [|split]].
  - pose proof (be_range (sub c 0 3) (bytes_ok_sub _ _ _ H)) as R. rewrite sub_length in R by lia. exact R.
  - pose proof (be_range (sub c 3 3) (bytes_ok_sub _ _ _ H)) as R. rewrite sub_length in R by lia. exact R.
  - exists v, (nth 0 (sub c 14 15) 0). split; [reflexivity|].
    split; [apply nth_byte_ok; [now apply bytes_ok_sub|rewrite sub_length; lia]|].
    specialize (K v eq_refl). unfold unmarshal_vreg in Ev. apply bind_ok in Ev as (u1 & _ & Ev).
    apply bind_ok in Ev as (s & _ & Ev). apply Ok_inj in Ev as <-. cbn [vr_nation] in *.
    destruct (unmarshal_enum _ _); [reflexivity| |]; now elim K.
  - exists (sub c 29 2), k. repeat split; auto; [now apply bytes_ok_sub|apply sub_length; lia].
Qed.

Definition vehicle_bytes (i : Z) (ob oe b : Z) (c : bytes) : bytes :=
  append_odometer (Z.quot ob 1000 * 1000) ++ append_odometer (Z.quot oe 1000 * 1000) ++
  to_be 4 (TEST_EPOCH + i * 86400) ++ to_be 4 (TEST_EPOCH + i * 86400 + 86400 - 1) ++ (b :: test_vrn) ++ c.

Lemma unmarshal_vehicle_cat cm o1 o2 t1 t2 v c :
  length o1 = 3%nat -> length o2 = 3%nat -> length t1 = 4%nat -> length t2 = 4%nat ->
  length v = 15%nat -> length c = 2%nat ->
  unmarshal_card_vehicle cm (o1 ++ o2 ++ t1 ++ t2 ++ v ++ c) =
  let* f := unmarshal_time t1 in
  let* l := unmarshal_time t2 in
  let* v' := unmarshal_vreg cm v in
  let* k := unmarshal_bcd_string c in
  Ok (mkCV (o1 ++ o2 ++ t1 ++ t2 ++ v ++ c) (be o1) (be o2) f l (Some v') (Some k)).
Proof.
  intros L1 L2 L3 L4 L5 L6. unfold unmarshal_card_vehicle.
  rewrite !app_length, L1, L2, L3, L4, L5, L6. cbn [Nat.add Nat.eqb guard bind].
  rewrite (sub_app_l o1) by exact L1.
  assert (S2 : sub (o1 ++ o2 ++ t1 ++ t2 ++ v ++ c) 3 3 = o2).
  { rewrite sub_app_r by exact L1. rewrite firstn_app, L2, Nat.sub_diag, firstn_O, app_nil_r. apply firstn_all2. lia. }
  assert (S3 : sub (o1 ++ o2 ++ t1 ++ t2 ++ v ++ c) 6 4 = t1).
  { rewrite app_assoc, sub_app_r by (rewrite app_length; lia).
    rewrite firstn_app, L3, Nat.sub_diag, firstn_O, app_nil_r. apply firstn_all2. lia. }
  assert (S4 : sub (o1 ++ o2 ++ t1 ++ t2 ++ v ++ c) 10 4 = t2).
  { rewrite (app_assoc o1), (app_assoc _ t1), sub_app_r by (rewrite !app_length; lia).
    rewrite firstn_app, L4, Nat.sub_diag, firstn_O, app_nil_r. apply firstn_all2. lia. }
  assert (S5 : sub (o1 ++ o2 ++ t1 ++ t2 ++ v ++ c) 14 15 = v).
  { rewrite (app_assoc o1), (app_assoc _ t1), (app_assoc _ t2), sub_app_r by (rewrite !app_length; lia).
    rewrite firstn_app, L5, Nat.sub_diag, firstn_O, app_nil_r. apply firstn_all2. lia. }
  assert (S6 : sub (o1 ++ o2 ++ t1 ++ t2 ++ v ++ c) 29 2 = c).
  { rewrite (app_assoc o1), (app_assoc _ t1), (app_assoc _ t2), (app_assoc _ v), sub_app_r by (rewrite !app_length; lia).
    apply firstn_all2. lia. }
  rewrite S2, S3, S4, S5, S6. reflexivity.
Qed.

Lemma anonymize_vehicle_props cm i r :
  vehicle_ok r -> 0 <= i < 30000 ->
  append_card_vehicle (anonymize_vehicle i r) = Ok (cv_raw (anonymize_vehicle i r)) /\
  length (cv_raw (anonymize_vehicle i r)) = 31%nat /\
  exists r', unmarshal_card_vehicle cm (cv_raw (anonymize_vehicle i r)) = Ok r' /\
    anonymize_vehicle i r' = anonymize_vehicle i r /\
    cv_raw r' = cv_raw (anonymize_vehicle i r).
Proof.
  intros (O1 & O2 & (v & b & Ev & Hb & En) & (c & s & Es & Hc & Lc & Ec)) Hi.
  assert (A : append_bcd_string (Some s) = Ok c) by (apply bcd_string_round_trip; auto; lia).
  assert (Q : forall raw, raw = [] \/ length raw = 31%nat ->
    append_card_vehicle (mkCV raw (Z.quot (cv_odo_begin r) 1000 * 1000) (Z.quot (cv_odo_end r) 1000 * 1000)
      (Some (mkTs (TEST_EPOCH + i * 86400) 0)) (Some (mkTs (TEST_EPOCH + i * 86400 + 86400 - 1) 0))
      (option_map anonymize_vreg (cv_reg r)) (cv_counter r)) =
    Ok (vehicle_bytes i (cv_odo_begin r) (cv_odo_end r) b c)).
  { intros raw R. rewrite Ev, Es. cbn [option_map].
    rewrite (append_vehicle_eq _ _ _ _ _ _ _ (to_be 4 (TEST_EPOCH + i * 86400))
      (to_be 4 (TEST_EPOCH + i * 86400 + 86400 - 1)) (b :: test_vrn) c); auto.
    now apply anonymize_vreg_append. }
  assert (L : length (vehicle_bytes i (cv_odo_begin r) (cv_odo_end r) b c) = 31%nat).
  { unfold vehicle_bytes. rewrite !app_length, !odometer_len, !to_be_length, Lc. reflexivity. }
  unfold anonymize_vehicle at 1 2 3 4 6 7. cbv zeta. unfold regenerate. rewrite !Q by auto.
  unfold set_vehicle_raw. cbn [cv_raw cv_odo_begin cv_odo_end cv_first_use cv_last_use cv_reg cv_counter].
  split; [apply Q; auto|]. split; [exact L|].
  destruct (test_vrn_back cm b) as (sv & _ & Uv). rewrite En in Uv.
  set (bs := vehicle_bytes i (cv_odo_begin r) (cv_odo_end r) b c).
  exists (mkCV bs (Z.quot (cv_odo_begin r) 1000 * 1000) (Z.quot (cv_odo_end r) 1000 * 1000)
      (Some (mkTs (TEST_EPOCH + i * 86400) 0)) (Some (mkTs (TEST_EPOCH + i * 86400 + 86400 - 1) 0))
      (Some (mkVR (vr_nation v) (Some sv))) (Some s)).
  split; [|split; [|reflexivity]].
  - unfold bs, vehicle_bytes. rewrite unmarshal_vehicle_cat by
      (apply odometer_len || apply to_be_length || reflexivity || exact Lc).
    rewrite !time_back by (unfold TEST_EPOCH; lia). cbn [bind]. rewrite Uv, Ec. cbn [bind].
    rewrite !odometer_value by (apply quot_round_range; lia). reflexivity.
  - unfold anonymize_vehicle. cbv zeta. cbn [cv_odo_begin cv_odo_end cv_reg cv_counter option_map].
    rewrite !quot_round by lia. unfold anonymize_vreg at 1. cbn [vr_nation].
    unfold regenerate. pose proof (Q [] (or_introl eq_refl)) as Q0. rewrite Ev, Es in Q0. cbn [option_map] in Q0.
    unfold anonymize_vreg in Q0. rewrite Q0, Ev, Es. reflexivity.
Qed.

Lemma anonymize_vehicles_eq x :
  anonymize_vehicles x =
  regenerate (fun v => append_vehicles (Some v)) (fun b v => mkVeh b (vs_newest v) (vs_records v))
    (mkVeh [] (vs_newest x) (mapi_from anonymize_vehicle 0 (vs_records x))).
Proof. reflexivity. Qed.

Lemma mapi_map_res {A B} (f : Z -> A -> B) (un : bytes -> res A) (raw : B -> bytes) m l : forall i,
  0 <= i -> i + Z.of_nat (length l) <= m ->
  (forall j a, In a l -> 0 <= j < m -> exists a', un (raw (f j a)) = Ok a' /\ f j a' = f j a) ->
  exists l', map_res un (map raw (mapi_from f i l)) = Ok l' /\ mapi_from f i l' = mapi_from f i l.
Proof.
  induction l as [|a l IH]; intros i I L K; cbn [mapi_from map map_res].
  - exists []. split; reflexivity.
  - cbn [length] in L. destruct (K i a (or_introl eq_refl) ltac:(lia)) as (a' & U & E).
    destruct (IH (i + 1)) as (l' & U' & E'); [lia|lia|intros j b Ib; apply K; now right|].
    rewrite U. cbn [bind]. rewrite U'. exists (a' :: l'). split; [reflexivity|].
    cbn [mapi_from]. now rewrite E, E'.
Qed.

Lemma Forall2_len {A B} (R : A -> B -> Prop) l m : Forall2 R l m -> length l = length m.
Proof. induction 1; cbn [length]; congruence. Qed.

Lemma vehicles_back cm d x :
  bytes_ok d -> Z.of_nat (length d) <= 900000 -> unmarshal_vehicles cm d = Ok x ->
  Forall (fun r => forall v, cv_reg r = Some v -> vr_nation v <> ENUM_UNRECOGNIZED) (vs_records x) ->
  append_vehicles (Some (anonymize_vehicles x)) = Ok (vs_raw (anonymize_vehicles x)) /\
  length (vs_raw (anonymize_vehicles x)) = (2 + (length d - 2) / 31 * 31)%nat /\
  exists y, unmarshal_vehicles cm (vs_raw (anonymize_vehicles x)) = Ok y /\
    anonymize_vehicles y = anonymize_vehicles x.
Proof.
  intros H L E K. unfold unmarshal_vehicles in E. apply bind_ok in E as (u & G & E). apply guard_ok in G.
  destruct (Nat.ltb_spec (length d) 2); [discriminate|].
  apply bind_ok in E as (rs0 & Er & E). apply Ok_inj in E as <-. cbn [vs_records] in K.
  assert (C : length rs0 = ((length d - 2) / 31)%nat).
  { apply map_res_ok in Er. rewrite <- (Forall2_len _ _ _ Er), chunks_count, skipn_length. reflexivity. }
  assert (R : Forall vehicle_ok rs0).
  { apply map_res_ok in Er. pose proof (chunks_ok 31 (skipn 2 d) ltac:(lia) (bytes_ok_skipn _ _ H)) as B.
    clear C. revert B K. induction Er as [|c r cs rs Ec Er IH]; intros B K; [constructor|].
    apply Forall_cons_iff in B as [B1 B2]. apply Forall_cons_iff in K as [K1 K2].
    constructor; [now apply (vehicle_parsed cm c)|auto]. }
  assert (N : 0 <= be (sub d 0 2) < 65536).
  { pose proof (be_range (sub d 0 2) (bytes_ok_sub _ _ _ H)) as B. rewrite sub_length in B by lia. exact B. }
  rewrite anonymize_vehicles_eq. cbn [vs_newest vs_records].
  set (n := be (sub d 0 2)) in *. set (rs := mapi_from anonymize_vehicle 0 rs0).
  assert (A : Forall (fun r => append_card_vehicle r = Ok (cv_raw r) /\ length (cv_raw r) = 31%nat) rs).
  { apply (mapi_Forall vehicle_ok _ _ _ 0 30000); auto; try lia.
    intros j a J Pa. destruct (anonymize_vehicle_props cm j a Pa J) as (P1 & P2 & _). auto. }
  apply Forall_and_inv in A as [A1 A2].
  assert (U16 : u16 n = n) by (unfold u16; now rewrite Z.mod_small).
  assert (M : regenerate (fun v => append_vehicles (Some v)) (fun b v => mkVeh b (vs_newest v) (vs_records v))
    (mkVeh [] n rs) = mkVeh (to_be 2 n ++ concat (map cv_raw rs)) n rs).
  { unfold regenerate. cbn [append_vehicles vs_raw vs_newest vs_records].
    rewrite (append_pointer_fresh append_card_vehicle cv_raw) by (auto; rewrite to_be_length; lia).
    now rewrite U16. }
  rewrite M. cbn [append_vehicles vs_raw vs_newest vs_records]. rewrite U16.
  split; [|split].
  - apply (append_pointer_same append_card_vehicle cv_raw 31); auto.
  - rewrite app_length, to_be_length, (concat_length_map cv_raw 31) by auto.
    unfold rs. rewrite mapi_length, C. reflexivity.
  - unfold unmarshal_vehicles.
    rewrite app_length, to_be_length. cbn [Nat.add Nat.ltb Nat.leb negb guard bind].
    replace (skipn 2 (to_be 2 n ++ concat (map cv_raw rs))) with (concat (map cv_raw rs)) by reflexivity.
    rewrite sub_app_l by apply to_be_length.
    rewrite chunks_concat by (lia || now rewrite Forall_map).
    destruct (mapi_map_res anonymize_vehicle (unmarshal_card_vehicle cm) cv_raw 30000 rs0 0)
      as (l' & U & Ey); [lia|lia| |].
    { intros j a Ia J. rewrite Forall_forall in R.
      destruct (anonymize_vehicle_props cm j a (R a Ia) J) as (_ & _ & r' & P3 & P4 & _). eauto. }
    fold rs in U, Ey. rewrite U. cbn [bind]. eexists. split; [reflexivity|].
    rewrite be_to_be. change (256 ^ Z.of_nat 2) with 65536. rewrite Z.mod_small by exact N.
    rewrite anonymize_vehicles_eq. cbn [vs_newest vs_records]. rewrite Ey. exact M.
Qed.
