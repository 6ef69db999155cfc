(** Files of fixed-size records: decode-then-encode of whole files. *)

From Verif Require Import Base Enums DDScalar P_Scalar Utf8 P_Utf8 DDString P_String DDRecord Chunks
  Scanner P_Scanner CardBasic Field P_Basic CardRecords P_Record.

Definition body_acc (f : field) (b : bytes) : bool := forallb (f_acc f) (chunks (f_len f) b).
Definition body_w (f : field) (b : bytes) : res bytes := concat_res (f_w f) (chunks (f_len f) b).

Lemma map_res_spec {X} (un : bytes -> res X) ap f cs :
  implements un ap f -> Forall bytes_ok cs -> Forall (fun c => length c = f_len f) cs ->
  match map_res un cs with
  | Ok rs => forallb (f_acc f) cs = true /\ concat_res ap rs = concat_res (f_w f) cs /\ length rs = length cs
             /\ Forall2 (fun r c => ap r = f_w f c) rs cs
  | Err _ => forallb (f_acc f) cs = false
  | Panic => False
  end.
Proof.
  intros I. induction 1 as [|c cs Hc Hcs IH]; intros L; cbn [map_res].
  - repeat split; auto.
  - inversion L as [|? ? Lc Lcs]; subst. specialize (IH Lcs). pose proof (I c Hc Lc) as Q.
    cbn [forallb concat_res].
    destruct (un c) as [x|e|]; cbn [bind]; [|now rewrite Q|contradiction].
    destruct Q as [A W]. rewrite A. cbn [andb].
    destruct (map_res un cs) as [rs|e|]; cbn [bind]; auto.
    destruct IH as (IA & IW & IL & IF). cbn [concat_res length]. rewrite W, IW, IL. repeat split; auto.
Qed.

Lemma body_spec {X} (un : bytes -> res X) ap f b :
  implements un ap f -> (0 < f_len f)%nat -> bytes_ok b ->
  match map_res un (chunks (f_len f) b) with
  | Ok rs => body_acc f b = true /\ concat_res ap rs = body_w f b /\ length rs = (length b / f_len f)%nat
             /\ Forall2 (fun r c => ap r = f_w f c) rs (chunks (f_len f) b)
  | Err _ => body_acc f b = false
  | Panic => False
  end.
Proof.
  intros I N H. rewrite <- (chunks_count (f_len f) b).
  apply map_res_spec; auto using chunks_ok, chunks_each.
Qed.

Lemma body_good f b :
  good f -> (0 < f_len f)%nat -> bytes_ok b -> body_acc f b = true ->
  body_w f b <> Panic /\
  forall b', body_w f b = Ok b' ->
    length b' = (length b / f_len f * f_len f)%nat /\ bytes_ok b' /\ body_acc f b' = true /\ body_w f b' = Ok b'.
Proof.
  intros G N H. unfold body_acc, body_w. rewrite <- (chunks_count (f_len f) b).
  pose proof (chunks_ok (f_len f) b N H) as HO. pose proof (chunks_each (f_len f) b N) as HL.
  set (cs := chunks (f_len f) b) in *. clearbody cs. clear H. intros A.
  assert (Q : forall c, In c cs -> f_w f c <> Panic /\
    forall c', f_w f c = Ok c' -> length c' = f_len f /\ bytes_ok c' /\ f_acc f c' = true /\ f_w f c' = Ok c').
  { intros c I. rewrite Forall_forall in HO, HL. rewrite forallb_forall in A.
    apply G; auto. }
  split.
  - apply concat_res_no_panic. intros c I. apply (Q c I).
  - intros b' E. apply concat_res_ok in E as (bs & F & ->).
    assert (K : Forall (fun c' => length c' = f_len f /\ bytes_ok c' /\ f_acc f c' = true /\ f_w f c' = Ok c') bs
                /\ length bs = length cs).
    { clear HO HL A. induction F as [|c c' cs bs E F IH]; split; auto; [|].
      - constructor.
        + apply (Q c); auto. now left.
        + apply IH. intros x I. apply Q. now right.
      - cbn [length]. f_equal. apply IH. intros x I. apply Q. now right. }
    destruct K as [K KL].
    assert (KE : Forall (fun c => length c = f_len f) bs) by (eapply Forall_impl; [|exact K]; intros x Hx; apply Hx).
    rewrite (concat_length_uniform (f_len f)), KL by auto. split; auto.
    rewrite chunks_concat by auto. split; [|split].
    + clear -K. induction K as [|c l Kc K IH]; cbn [concat]; [constructor|]. apply bytes_ok_app. tauto.
    + apply forallb_forall. intros c I. rewrite Forall_forall in K. apply (K c I).
    + apply concat_res_ok. exists bs. split; auto. clear -K. induction K; constructor; auto. tauto.
Qed.

(** Painting equals concatenation, provided the canvas has room. *)
Lemma paint_eq {X} (ap : X -> res bytes) size l : forall c off,
  Forall (fun r => forall b, ap r = Ok b -> length b = size) l ->
  (off + size * length l <= length c)%nat ->
  paint_records ap size c off l =
  (let* b := concat_res ap l in Ok (firstn off c ++ b ++ skipn (off + size * length l) c)).
Proof.
  induction l as [|r l IH]; intros c off F L; cbn [paint_records concat_res bind length app] in *.
  - rewrite Nat.mul_0_r, Nat.add_0_r, firstn_skipn. reflexivity.
  - inversion F as [|? ? Fr Fl]; subst. destruct (ap r) as [b|e|] eqn:E; cbn [bind]; auto.
    specialize (Fr b eq_refl). rewrite Fr, Nat.eqb_refl. cbn [guard bind].
    rewrite copy_into_eq by lia.
    rewrite IH; auto.
    + destruct (concat_res ap l) as [bs|e|]; cbn [bind]; auto. f_equal.
      assert (LF : length (firstn off c ++ b) = (off + size)%nat) by (rewrite app_length, firstn_length; lia).
      rewrite (app_assoc (firstn off c) b (skipn (off + size) c)). rewrite firstn_app_exact by exact LF.
      rewrite skipn_app, LF, (skipn_all2 (firstn off c ++ b)) by (rewrite LF; lia). cbn [app].
      rewrite skipn_skipn, <- !app_assoc. do 4 f_equal. lia.
    + rewrite !app_length, firstn_length, skipn_length. lia.
Qed.

Lemma append_pointer_file_eq {X} (ap : X -> res bytes) size h d rs :
  Forall (fun r => forall b, ap r = Ok b -> length b = size) rs ->
  (h + length rs * size <= length d)%nat ->
  append_pointer_file ap size (firstn h d) d rs = (let* b := concat_res ap rs in Ok (firstn h d ++ b)).
Proof.
  intros F L. unfold append_pointer_file. cbv zeta. rewrite firstn_length_le by lia.
  destruct (Nat.eqb_spec (length d) (h + length rs * size)) as [E|E]; auto.
  replace (copy_into d 0 h (firstn h d)) with d.
  - rewrite paint_eq by (auto; lia). destruct (concat_res ap rs); cbn [bind]; auto.
    rewrite skipn_all2, app_nil_r by lia. reflexivity.
  - symmetry. apply (copy_same d 0 h h); lia.
Qed.

(** A codec whose write-back is described for a part of the files only. *)
Definition codec_on {X} (P : bytes -> Prop) (un : bytes -> res X) (ap : X -> res bytes)
    (A : bytes -> bool) (W : bytes -> res bytes) : Prop :=
  forall d, bytes_ok d ->
    match un d with
    | Ok x =>
        A d = true /\ ap x <> Panic /\
        (P d -> ap x = W d /\
           forall d', W d = Ok d' ->
             bytes_ok d' /\ (length d' <= length d)%nat /\ A d' = true /\ W d' = Ok d' /\ P d')
    | Err _ => A d = false
    | Panic => False
    end.

Lemma codec_codec_on {X} (un : bytes -> res X) ap A W :
  codec un ap A W <-> codec_on (fun _ => True) un ap A W.
Proof.
  split; intros C d H; specialize (C d H); destruct (un d) as [x|e|]; auto.
  - destruct C as (CA & CE & CP & CR). rewrite CE. repeat split; auto; destruct (CR d' H1) as (? & ? & ? & ?); auto.
  - destruct C as (CA & CP & CR). destruct (CR I) as [CE CF]. rewrite <- CE. repeat split; auto.
    all: rewrite CE in *; destruct (CF d' H0) as (? & ? & ? & ? & ?); auto.
Qed.

(** Files with a header of [h] bytes followed by records; incomplete records at the
    end are dropped. *)
Definition file_acc (h : nat) (f : field) (d : bytes) : bool :=
  (h <=? length d)%nat && body_acc f (skipn h d).

Definition file_w (h : nat) (f : field) (d : bytes) : res bytes :=
  let* b := body_w f (skipn h d) in Ok (firstn h d ++ b).

Lemma file_good h f d :
  good f -> (0 < f_len f)%nat -> bytes_ok d -> file_acc h f d = true ->
  file_w h f d <> Panic /\
  forall d', file_w h f d = Ok d' ->
    bytes_ok d' /\ (length d' <= length d)%nat /\
    length d' = (h + (length d - h) / f_len f * f_len f)%nat /\
    file_acc h f d' = true /\ file_w h f d' = Ok d'.
Proof.
  intros G N H A. apply andb_prop in A as [L A]. apply Nat.leb_le in L. unfold file_w.
  destruct (body_good f (skipn h d) G N (bytes_ok_skipn _ _ H) A) as [P Q].
  destruct (body_w f (skipn h d)) as [b|e|] eqn:E; cbn [bind]; [|split; discriminate|congruence].
  split; [discriminate|]. intros d' E'. apply Ok_inj in E'. subst d'.
  destruct (Q b eq_refl) as (Lb & Hb & Ab & Wb). rewrite skipn_length in Lb.
  assert (Lh : length (firstn h d) = h) by (apply firstn_length_le; lia).
  assert (M : ((length d - h) / f_len f * f_len f <= length d - h)%nat).
  { rewrite Nat.mul_comm. apply Nat.mul_div_le. lia. }
  split; [apply bytes_ok_app; auto using bytes_ok_firstn|].
  split; [rewrite app_length; lia|]. split; [rewrite app_length; lia|].
  unfold file_acc. rewrite skipn_app_exact, firstn_app_exact by auto. rewrite Ab, Wb. cbn [bind].
  split; auto. rewrite app_length. destruct (Nat.leb_spec h (length (firstn h d) + length b)); auto; lia.
Qed.

Lemma pointer_codec {X Y} (un : bytes -> res X) (ap : X -> res bytes) f h
    (unf : bytes -> res Y) (apf : Y -> res bytes) (mk : bytes -> list X -> Y) :
  implements un ap f -> good f -> (0 < f_len f)%nat ->
  (forall d, (length d < h)%nat -> exists e, unf d = Err e) ->
  (forall d, bytes_ok d -> (h <= length d)%nat ->
     unf d = (let* rs := map_res un (chunks (f_len f) (skipn h d)) in Ok (mk d rs))) ->
  (forall d rs, bytes_ok d -> (h <= length d)%nat ->
     apf (mk d rs) = append_pointer_file ap (f_len f) (firstn h d) d rs) ->
  codec unf apf (file_acc h f) (file_w h f).
Proof.
  intros I G N S U AP d H. destruct (Nat.leb_spec h (length d)) as [L|L].
  - rewrite U by auto.
    pose proof (body_spec un ap f (skipn h d) I N (bytes_ok_skipn _ _ H)) as B.
    assert (FA : file_acc h f d = body_acc f (skipn h d)).
    { unfold file_acc. destruct (Nat.leb_spec h (length d)); auto; lia. }
    destruct (map_res un (chunks (f_len f) (skipn h d))) as [rs|e|]; cbn [bind]; auto.
    + destruct B as (BA & BW & BL & BF). rewrite <- FA in BA. split; auto.
      destruct (file_good h f d G N H BA) as [P Q]. split.
      * rewrite AP by auto. rewrite append_pointer_file_eq.
        -- unfold file_w. now rewrite BW.
        -- clear BW BL U. pose proof (chunks_each (f_len f) (skipn h d) N) as HL.
           pose proof (chunks_ok (f_len f) (skipn h d) N (bytes_ok_skipn _ _ H)) as HO.
           rewrite FA in BA. unfold body_acc in BA. rewrite forallb_forall in BA.
           revert BA HL HO. induction BF as [|r c rs cs E F IH]; intros BA HL HO; constructor.
           ++ intros b Eb. rewrite E in Eb. inversion HL; inversion HO; subst.
              destruct (G c) as [_ Gc]; auto. { apply BA. now left. } apply (Gc b Eb).
           ++ apply IH; [intros x Ix; apply BA; now right|inversion HL; auto|inversion HO; auto].
        -- rewrite BL, skipn_length. rewrite Nat.mul_comm.
           pose proof (Nat.mul_div_le (length d - h) (f_len f) ltac:(lia)). lia.
      * split; auto. intros d' E. destruct (Q d' E) as (? & ? & ? & ? & ?). auto.
    + now rewrite FA.
  - destruct (S d L) as [e E]. rewrite E. unfold file_acc.
    destruct (Nat.leb_spec h (length d)); auto; lia.
Qed.

Lemma map_as_map_res {X Y} (f : X -> res Y) (g : X -> Y) cs :
  Forall (fun c => f c = Ok (g c)) cs -> map_res f cs = Ok (map g cs).
Proof. induction 1 as [|c cs E F IH]; cbn [map_res map]; auto. now rewrite E, IH. Qed.

Lemma implements_id_ok {X} (un : bytes -> res X) ap n c :
  implements un ap (f_id n) -> bytes_ok c -> length c = n -> exists x, un c = Ok x /\ ap x = Ok c.
Proof.
  intros I H L. specialize (I c H L). destruct (un c) as [x|e|]; [|discriminate|contradiction].
  exists x. destruct I. auto.
Qed.

Lemma map_total {X} (un : bytes -> res X) ap (n : nat) (dflt : bytes -> X) b :
  implements un ap (f_id n) -> (0 < n)%nat -> bytes_ok b ->
  map_res un (chunks n b) = Ok (map (fun c => match un c with Ok p => p | _ => dflt c end) (chunks n b)).
Proof.
  intros I N H. apply map_as_map_res. apply Forall_forall. intros c Ic.
  pose proof (chunks_ok n b N H) as HO. pose proof (chunks_each n b N) as HL.
  rewrite Forall_forall in HO, HL.
  destruct (implements_id_ok un ap n c I) as (x & E & _); auto. now rewrite E.
Qed.

Lemma places_codec :
  codec unmarshal_places (fun x => append_places (Some x)) (file_acc 1 (f_id 10)) (file_w 1 (f_id 10)).
Proof.
  apply (pointer_codec unmarshal_place append_place (f_id 10) 1 _ _ (fun d rs => mkPlaces d (nth 0 d 0) rs));
    auto using place_implements, good_id; cbn [f_id f_len]; try lia.
  - intros d L. unfold unmarshal_places. apply short_guard. lia.
  - intros d H L. unfold unmarshal_places. rewrite long_guard by lia.
    rewrite (map_total unmarshal_place append_place 10 (fun c => mkPlace c None 0 None 0 None [] 0))
      by (auto using place_implements, bytes_ok_skipn; lia). reflexivity.
  - intros d rs H L. cbn [append_places ps_newest ps_raw ps_records]. f_equal.
    rewrite u8_nth by (auto; lia). reflexivity.
Qed.

Lemma be2_back d : bytes_ok d -> (2 <= length d)%nat -> to_be 2 (u16 (be (sub d 0 2))) = firstn 2 d.
Proof.
  intros H L. pose proof (be_range (sub d 0 2) (bytes_ok_sub _ _ _ H)) as R. rewrite sub_length in R by lia.
  change (256 ^ Z.of_nat 2) with 65536 in R. unfold u16. rewrite Z.mod_small by lia.
  apply (to_be_be 2 (sub d 0 2)); auto using bytes_ok_sub. apply sub_length. lia.
Qed.

Lemma places_g2_codec :
  codec unmarshal_places_g2 (fun x => append_places_g2 (Some x)) (file_acc 2 (f_id 21)) (file_w 2 (f_id 21)).
Proof.
  apply (pointer_codec unmarshal_place_g2 append_place_g2 (f_id 21) 2 _ _
           (fun d rs => mkPlaces2 d (be (sub d 0 2)) rs));
    auto using place_g2_implements, good_id; cbn [f_id f_len]; try lia.
  - intros d L. unfold unmarshal_places_g2. apply short_guard. lia.
  - intros d H L. unfold unmarshal_places_g2. rewrite long_guard by lia.
    rewrite (map_total unmarshal_place_g2 append_place_g2 21 (fun c => mkPlace2 c None 0 None 0 None [] 0 None))
      by (auto using place_g2_implements, bytes_ok_skipn; lia). reflexivity.
  - intros d rs H L. cbn [append_places_g2 ps2_newest ps2_raw ps2_records]. f_equal. now apply be2_back.
Qed.

Lemma vehicle_fields_good : Forall good vehicle_fields.
Proof. unfold vehicle_fields. goods. Qed.

Lemma vehicle_g2_fields_good : Forall good vehicle_g2_fields.
Proof. unfold vehicle_g2_fields. pose proof vehicle_fields_good as G. unfold vehicle_fields in G.
  inversion_clear G as [|? ? G1 R]. inversion_clear R as [|? ? G2 R']. inversion_clear R' as [|? ? G3 _].
  repeat (apply Forall_cons; auto using good_vin). Qed.

Lemma vehicles_codec cm :
  codec (unmarshal_vehicles cm) (fun x => append_vehicles (Some x))
    (file_acc 2 (fseq vehicle_fields)) (file_w 2 (fseq vehicle_fields)).
Proof.
  apply (pointer_codec (unmarshal_card_vehicle cm) append_card_vehicle (fseq vehicle_fields) 2 _ _
           (fun d rs => mkVeh d (be (sub d 0 2)) rs));
    auto using card_vehicle_implements, good_seq, vehicle_fields_good.
  - change (0 < 31)%nat. lia.
  - intros d L. unfold unmarshal_vehicles. apply short_guard. lia.
  - intros d H L. unfold unmarshal_vehicles. rewrite long_guard by lia. reflexivity.
  - intros d rs H L. cbn [append_vehicles vs_newest vs_raw vs_records]. rewrite be2_back by auto. reflexivity.
Qed.

Lemma vehicles_g2_codec cm :
  codec (unmarshal_vehicles_g2 cm) (fun x => append_vehicles_g2 (Some x))
    (file_acc 2 (fseq vehicle_g2_fields)) (file_w 2 (fseq vehicle_g2_fields)).
Proof.
  apply (pointer_codec (unmarshal_card_vehicle_g2 cm) append_card_vehicle_g2 (fseq vehicle_g2_fields) 2 _ _
           (fun d rs => mkVeh2 d (be (sub d 0 2)) rs));
    auto using card_vehicle_g2_implements, good_seq, vehicle_g2_fields_good.
  - change (0 < 48)%nat. lia.
  - intros d L. unfold unmarshal_vehicles_g2. apply short_guard. lia.
  - intros d H L. unfold unmarshal_vehicles_g2. rewrite long_guard by lia. reflexivity.
  - intros d rs H L. cbn [append_vehicles_g2 vs2_newest vs2_raw vs2_records]. rewrite be2_back by auto. reflexivity.
Qed.

Lemma collect_ok_total {X} (un : bytes -> res X) ap (n : nat) cs :
  implements un ap (f_id n) -> Forall bytes_ok cs -> Forall (fun c => length c = n) cs ->
  map_res un cs = Ok (collect_ok un cs).
Proof.
  intros I H. induction H as [|c cs Hc H IH]; intros L; cbn [map_res collect_ok]; auto.
  inversion L; subst. destruct (implements_id_ok un ap _ c I Hc) as (x & E & _); auto.
  now rewrite E, IH.
Qed.

Lemma conditions_codec :
  codec unmarshal_conditions (fun x => append_conditions (Some x)) (file_acc 0 (f_id 5)) (file_w 0 (f_id 5)).
Proof.
  apply (pointer_codec unmarshal_spec_cond append_spec_cond (f_id 5) 0 _ _
           (fun d rs => mkCond d rs));
    auto using spec_cond_implements, good_id; cbn [f_id f_len]; try lia.
  - intros d H L. unfold unmarshal_conditions. change (skipn 0 d) with d.
    rewrite (collect_ok_total _ append_spec_cond 5)
      by (apply spec_cond_implements || (apply chunks_ok; [lia|auto]) || (apply chunks_each; lia)).
    cbn [bind]. destruct (Nat.eqb_spec (length d) 0) as [E|E]; auto.
    apply length_zero_iff_nil in E. subst. reflexivity.
Qed.

(** A painted record that already stands there changes nothing. *)
Lemma paint_fit_same cs : forall c off,
  Forall bytes_ok cs -> Forall (fun x => length x = 5%nat) cs ->
  (off + 5 * length cs <= length c)%nat -> sub c off (5 * length cs) = concat cs ->
  paint_fit c off (collect_ok unmarshal_spec_cond cs) = Ok (Some c).
Proof.
  induction cs as [|x cs IH]; intros c off H L R E; cbn [collect_ok]; auto.
  inversion H as [|? ? Hx Hcs]; inversion L as [|? ? Lx Lcs]; subst.
  destruct (implements_id_ok _ _ _ x spec_cond_implements) as (v & Ev & Ew); auto.
  rewrite Ev. cbn [paint_fit length] in *.
  destruct (Nat.ltb_spec (length c) (off + 5)); [lia|]. rewrite Ew. cbn [bind]. rewrite Lx. cbn [Nat.eqb guard bind].
  cbn [concat] in E.
  assert (S : sub c off 5 = x).
  { apply (f_equal (firstn 5)) in E. rewrite firstn_app_exact in E by auto. rewrite <- E. unfold sub.
    rewrite firstn_firstn. f_equal. lia. }
  rewrite <- S at 1. rewrite (copy_same c off (off + 5) 5) by lia. apply IH; auto; [lia|].
  apply (f_equal (skipn 5)) in E. rewrite skipn_app_exact in E by auto. rewrite <- E. unfold sub.
  rewrite skipn_firstn_comm, skipn_skipn. f_equal; try lia; f_equal; lia.
Qed.

(** The second-generation writer also keeps the bytes after the last full record. *)
Lemma conditions_g2_codec :
  codec unmarshal_conditions_g2 (fun x => append_conditions_g2 (Some x))
    (fun d => (2 <=? length d)%nat) (fun d => Ok d).
Proof.
  intros d H. unfold unmarshal_conditions_g2. destruct (Nat.leb_spec 2 (length d)) as [L|L].
  - rewrite long_guard by lia. cbn [append_conditions_g2 co2_newest co2_raw co2_records].
    split; auto. rewrite be2_back by auto.
    destruct (Nat.ltb_spec 0 (length d)); [|lia].
    rewrite slice_ok by lia. cbn [bind].
    replace (copy_into d 0 2 (firstn 2 d)) with d by (symmetry; apply (copy_same d 0 2 2); lia).
    rewrite paint_fit_same.
    + cbn [bind]. split; auto. split; [discriminate|]. intros d' E. apply Ok_inj in E; subst.
      destruct (Nat.leb_spec 2 (length d')); auto; lia.
    + apply chunks_ok; auto using bytes_ok_skipn. lia.
    + apply chunks_each. lia.
    + rewrite chunks_count, skipn_length. pose proof (Nat.mul_div_le (length d - 2) 5 ltac:(lia)). lia.
    + rewrite concat_chunks by lia. rewrite chunks_count. unfold sub. f_equal. lia.
  - destruct (Nat.ltb_spec (length d) 2); [|lia]. reflexivity.
Qed.

(** ** GNSS places and vehicle units *)

Lemma good_gnss : good (fseq gnss_fields).
Proof. apply good_seq. unfold gnss_fields. repeat (apply Forall_cons; auto using good_id, good_odo). Qed.

Definition file_whole (h n : nat) (d : bytes) : bool := ((length d - h) mod n =? 0)%nat.

Lemma file_whole_after h n d' k : (0 < n)%nat -> length d' = (h + k * n)%nat -> file_whole h n d' = true.
Proof.
  intros N L. unfold file_whole. rewrite L. replace (h + k * n - h)%nat with (k * n)%nat by lia.
  rewrite Nat.mod_mul by lia. reflexivity.
Qed.

Lemma map_res_fst {X} (f : bytes -> res X) (l : list (bytes * bytes)) :
  map_res (fun p => f (fst p)) l = map_res f (map fst l).
Proof. induction l as [|p l IH]; cbn [map_res map]; auto. now rewrite IH. Qed.

Lemma gnss_places_codec :
  codec unmarshal_gnss_places (fun x => append_gnss_places (Some x))
    (fun d => file_whole 2 18 d && file_acc 2 (fseq gnss_fields) d) (file_w 2 (fseq gnss_fields)).
Proof.
  intros d H. unfold unmarshal_gnss_places, file_acc. destruct (Nat.leb_spec 2 (length d)) as [L|L].
  - rewrite long_guard by lia. fold (file_whole 2 18 d).
    destruct (file_whole 2 18 d) eqn:FW; cbn [guard bind andb]; [|reflexivity].
    destruct (scan_fixed_chunks 18 (skipn 2 d)) as (l & S & M). { pose proof max_eq. lia. }
    rewrite S. cbn [bind]. rewrite map_res_fst, M.
    pose proof (body_spec _ _ _ (skipn 2 d) gnss_record_implements ltac:(change (0 < 18)%nat; lia)
                  (bytes_ok_skipn _ _ H)) as B.
    change (f_len (fseq gnss_fields)) with 18%nat in B.
    destruct (map_res unmarshal_gnss_record (chunks 18 (skipn 2 d))) as [rs|e|]; cbn [bind]; auto.
    destruct B as (BA & BW & _). split; auto.
    assert (FA : file_acc 2 (fseq gnss_fields) d = true).
    { unfold file_acc. rewrite BA. destruct (Nat.leb_spec 2 (length d)); auto; lia. }
    destruct (file_good 2 (fseq gnss_fields) d good_gnss ltac:(change (0 < 18)%nat; lia) H FA) as [P Q].
    split; [|split; auto].
    + cbn [append_gnss_places gps_newest gps_records]. rewrite BW, be2_back by auto. reflexivity.
    + intros d' E. destruct (Q d' E) as (Q1 & Q2 & Q3 & Q4 & Q5). repeat split; auto.
      change (f_len (fseq gnss_fields)) with 18%nat in Q3.
      rewrite (file_whole_after 2 18 d' ((length d - 2) / 18)) by (auto; lia). exact Q4.
  - destruct (Nat.ltb_spec (length d) 2); [|lia]. apply andb_false_r.
Qed.

(** The part of the files for which the scanner's buffer is never overwritten. *)
Definition scan_safe (n : nat) (data : bytes) : Prop :=
  Z.of_nat (length data) <= 4096 /\
  ((length data mod n)%nat = 0%nat \/
   (Z.of_nat (length data) < 4096 /\ Z.of_nat (length data / n * n) <= 2048)).

Lemma scan_safe_whole n data k :
  (0 < n)%nat -> length data = (k * n)%nat -> Z.of_nat (length data) <= 4096 -> scan_safe n data.
Proof. intros N L B. split; auto. left. rewrite L. apply Nat.mod_mul. lia. Qed.

Lemma scan_safe_unchanged n data :
  (0 < n)%nat -> Z.of_nat n <= 4096 -> scan_safe n data ->
  scan_fixed n data = Ok (map (fun c => (c, c)) (chunks n data)).
Proof.
  intros N B [L C]. pose proof start_eq. apply scan_fixed_unchanged; try lia.
Qed.

Lemma append_string_value_no_panic o : append_string_value o <> Panic.
Proof.
  destruct o as [s|]; cbn [append_string_value]; [|discriminate].
  intros E. apply bind_panic in E as [E|(u & _ & E)].
  - destruct (sv_raw s); [|discriminate]. apply bind_panic in E as [E|(v & _ & E)]; [now apply guard_no_panic in E|].
    destruct (sv_length s); [now apply guard_no_panic in E|discriminate].
  - destruct (_ <? _)%nat; [discriminate|]. destruct (sv_length s); [|discriminate]. destruct (_ >? _); discriminate.
Qed.

Lemma append_vreg_no_panic o : append_vreg o <> Panic.
Proof.
  destruct o as [v|]; cbn [append_vreg]; [|discriminate].
  intros E. apply bind_panic in E as [E|(n & _ & E)].
  - destruct (_ =? _); [discriminate|]. now apply marshal_enum_no_panic in E.
  - apply bind_panic in E as [E|(s & _ & E)]; [now apply append_string_value_no_panic in E|discriminate].
Qed.

Lemma append_event_no_panic r : append_event r <> Panic.
Proof.
  unfold append_event. destruct (negb _); [discriminate|]. intros E.
  apply bind_panic in E as [E|(n & _ & E)]; [now apply append_time_no_panic in E|].
  apply bind_panic in E as [E|(m & _ & E)]; [now apply append_time_no_panic in E|].
  apply bind_panic in E as [E|(k & _ & E)]; [now apply append_vreg_no_panic in E|discriminate].
Qed.

(** Whether decoding succeeds does not depend on what the slices show in the end. *)
Lemma map_res_status {X} (un : bytes * bytes -> res X) (l : list (bytes * bytes)) :
  (forall a b b', is_ok (un (a, b)) = is_ok (un (a, b'))) ->
  (forall p, un p <> Panic) ->
  is_ok (map_res un l) = is_ok (map_res (fun c => un (c, c)) (map fst l)) /\ map_res un l <> Panic.
Proof.
  intros S NP. split; [|apply map_res_no_panic; auto].
  induction l as [|[a b] l IH]; cbn [map_res map fst]; auto.
  specialize (S a b a). destruct (un (a, b)), (un (a, a)); cbn [bind is_ok] in *; auto; try discriminate.
  destruct (map_res un l), (map_res (fun c => un (c, c)) (map fst l)); cbn [bind is_ok] in *; auto; discriminate.
Qed.

Lemma event_status cm a b b' : is_ok (unmarshal_event cm (a, b)) = is_ok (unmarshal_event cm (a, b')).
Proof.
  unfold unmarshal_event. cbn [fst snd]. destruct (be (sub a 1 4) =? 0); auto.
  destruct (guard _); cbn [bind]; auto. destruct (unmarshal_enum _ _); cbn [bind]; auto.
  destruct (unmarshal_time _); cbn [bind]; auto. destruct (unmarshal_time _); cbn [bind]; auto.
  destruct (unmarshal_vreg _ _); cbn [bind]; auto.
Qed.

Lemma unmarshal_time_no_panic d : unmarshal_time d <> Panic.
Proof.
  unfold unmarshal_time. intros E. apply bind_panic in E as [E|(u & _ & E)]; [now apply guard_no_panic in E|].
  destruct (_ =? _) in E; discriminate.
Qed.

Lemma event_no_panic cm p : unmarshal_event cm p <> Panic.
Proof.
  unfold unmarshal_event. destruct (_ =? 0); [discriminate|]. intros E.
  apply bind_panic in E as [E|(u & _ & E)]; [now apply guard_no_panic in E|].
  apply bind_panic in E as [E|(t & _ & E)]; [now apply unmarshal_enum_no_panic in E|].
  apply bind_panic in E as [E|(b & _ & E)]; [now apply unmarshal_time_no_panic in E|].
  apply bind_panic in E as [E|(e & _ & E)]; [now apply unmarshal_time_no_panic in E|].
  apply bind_panic in E as [E|(v & _ & E)]; [now apply unmarshal_vreg_no_panic in E|discriminate].
Qed.

Lemma map_res_pairs {X} (un : bytes * bytes -> res X) cs :
  map_res un (map (fun c => (c, c)) cs) = map_res (fun c => un (c, c)) cs.
Proof. induction cs as [|c cs IH]; cbn [map_res map]; auto. now rewrite IH. Qed.

Lemma events_codec cm :
  codec_on (scan_safe 24) (unmarshal_events cm) (fun x => append_events (Some x))
    (file_acc 0 f_event) (file_w 0 f_event).
Proof.
  intros d H. unfold unmarshal_events.
  destruct (scan_fixed_chunks 24 d) as (l & S & M). { pose proof max_eq. lia. }
  rewrite S. cbn [bind].
  pose proof (body_spec _ _ _ d (event_implements cm) ltac:(change (0 < 24)%nat; lia) H) as B.
  change (f_len f_event) with 24%nat in B.
  destruct (map_res_status (unmarshal_event cm) l (event_status cm) (event_no_panic cm)) as [ST NP].
  rewrite M in ST.
  assert (FA : file_acc 0 f_event d = body_acc f_event d) by reflexivity.
  destruct (map_res (unmarshal_event cm) l) as [rs|e|] eqn:E; auto.
  - destruct (map_res (fun c => unmarshal_event cm (c, c)) (chunks 24 d)) as [rs'|e'|]; try discriminate.
    destruct B as (BA & BW & _). rewrite FA. split; auto.
    split. { cbn [append_events odflt]. apply concat_res_no_panic. intros r _. apply append_event_no_panic. }
    intros P. rewrite scan_safe_unchanged in S by (auto; lia). apply Ok_inj in S. subst l.
    rewrite map_res_pairs in E.
    pose proof (body_spec _ _ _ d (event_implements cm) ltac:(change (0 < 24)%nat; lia) H) as B.
    change (f_len f_event) with 24%nat in B. rewrite E in B. destruct B as (_ & BW' & _).
    rewrite <- FA in BA. destruct (file_good 0 f_event d good_event ltac:(change (0 < 24)%nat; lia) H BA) as [PP Q].
    split.
    + change (concat_res append_event rs = file_w 0 f_event d). rewrite BW'. unfold file_w. change (skipn 0 d) with d.
      destruct (body_w f_event d); reflexivity.
    + intros d' E'. destruct (Q d' E') as (Q1 & Q2 & Q3 & Q4 & Q5). repeat split; auto.
      * destruct P. lia.
      * left. rewrite Q3. apply Nat.mod_mul. discriminate.
  - rewrite FA. destruct (map_res (fun c => unmarshal_event cm (c, c)) (chunks 24 d)); [discriminate ST|exact B|contradiction].
Qed.

Lemma unit_status a b b' : is_ok (unmarshal_unit_record (a, b)) = is_ok (unmarshal_unit_record (a, b')).
Proof.
  unfold unmarshal_unit_record. cbn [fst snd]. destruct (guard _); cbn [bind]; auto.
  destruct (unmarshal_time _); cbn [bind]; auto.
Qed.

Lemma unit_no_panic p : unmarshal_unit_record p <> Panic.
Proof.
  unfold unmarshal_unit_record. intros E.
  apply bind_panic in E as [E|(u & _ & E)]; [now apply guard_no_panic in E|].
  apply bind_panic in E as [E|(t & _ & E)]; [now apply unmarshal_time_no_panic in E|discriminate].
Qed.

Lemma append_unit_no_panic r : append_unit_record r <> Panic.
Proof.
  unfold append_unit_record. intros E.
  apply bind_panic in E as [E|(n & _ & E)]; [now apply append_time_no_panic in E|].
  repeat (apply bind_panic in E as [E|(? & _ & E)]; [now apply guard_no_panic in E|]). discriminate.
Qed.

Lemma units_used_codec :
  codec_on (fun d => Z.of_nat (length d) <= 4098) unmarshal_units_used (fun x => append_units_used (Some x))
    (fun d => (2 <=? length d)%nat && file_whole 2 10 d) (fun d => Ok d).
Proof.
  intros d H. unfold unmarshal_units_used. destruct (Nat.leb_spec 2 (length d)) as [L|L].
  2:{ destruct (Nat.ltb_spec (length d) 2); [|lia]. reflexivity. }
  rewrite long_guard by lia. fold (file_whole 2 10 d).
  destruct (file_whole 2 10 d) eqn:FW; cbn [guard bind andb]; [|reflexivity].
  destruct (scan_fixed_chunks 10 (skipn 2 d)) as (l & S & M). { pose proof max_eq. lia. }
  rewrite S. cbn [bind].
  pose proof (body_spec _ _ _ (skipn 2 d) unit_record_implements ltac:(cbn; lia) (bytes_ok_skipn _ _ H)) as B.
  cbn [f_id f_len] in B.
  destruct (map_res_status unmarshal_unit_record l unit_status unit_no_panic) as [ST NP].
  rewrite M in ST.
  unfold file_whole in FW. apply Nat.eqb_eq in FW.
  destruct (map_res unmarshal_unit_record l) as [rs|e|] eqn:E; cbn [bind]; auto.
  - split; auto. split.
    { cbn [append_units_used uu_newest uu_records]. intros X. apply bind_panic in X as [X|(b & _ & X)]; [|discriminate].
      revert X. apply concat_res_no_panic. intros r _. apply append_unit_no_panic. }
    intros P.
    assert (SF : scan_safe 10 (skipn 2 d)).
    { split; [rewrite skipn_length; lia|]. left. rewrite skipn_length. exact FW. }
    rewrite scan_safe_unchanged in S by (auto; lia). apply Ok_inj in S. subst l.
    rewrite map_res_pairs in E. rewrite E in B. destruct B as (_ & BW & _).
    split.
    + cbn [append_units_used uu_newest uu_records]. rewrite BW, be2_back by auto.
      assert (W : body_w (f_id 10) (skipn 2 d) = Ok (skipn 2 d)).
      { unfold body_w. cbn [f_id f_len]. apply concat_res_ok. exists (chunks 10 (skipn 2 d)). split.
        - clear. induction (chunks 10 (skipn 2 d)); constructor; auto.
        - symmetry. apply concat_chunks_exact; [lia|]. rewrite skipn_length. exact FW. }
      rewrite W. cbn [bind]. now rewrite firstn_skipn.
    + intros d' E'. apply Ok_inj in E'. subst d'. repeat split; auto.
      destruct (Nat.leb_spec 2 (length d)); [|lia]. unfold file_whole. now rewrite FW.
  - destruct (map_res (fun c => unmarshal_unit_record (c, c)) (chunks 10 (skipn 2 d))); try discriminate.
    + unfold body_acc in B. cbn [f_id f_acc f_len] in B. clear - B. induction (chunks 10 (skipn 2 d)); auto; discriminate.
    + contradiction.
Qed.
