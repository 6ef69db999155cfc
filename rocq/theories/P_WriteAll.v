(** What is written for each file of a driver card, whatever its size and text: the
    files [P_Driver.slot_W] describes under conditions, here without. *)

From Verif Require Import Base Enums Chunks DDScalar Utf8 DDString P_String DDRecord RawTypes RawCard Scanner
  P_Scalar Props_Scalar P_Utf8 Props_Basic P_Scanner P_ScanFinal Field CardBasic P_Basic CardRecords P_Record P_Records Props_Records Props_ScanExact.
From Verif Require Import CardIdent P_Ident CardActivity Props_Activity Cert P_Cert DriverCard P_Driver P_Dump Props_Dump Props_Driver P_Write.

(** ** Events and faults *)

(** The 24 bytes written for a record that held [now] when it was read and shows
    [fin] in the end. *)
Definition event_out (now fin : bytes) : res bytes :=
  if be (sub now 1 4) =? 0 then Ok fin
  else if nation_knownb (nth 9 now 0) then Ok (sub now 0 10 ++ norm_page (nth 10 now 0) :: sub fin 11 13)
  else fail.

Lemma event_w_at m : length m = 24%nat ->
  w_at event_fields m 0 =
  if nation_knownb (nth 9 m 0) then Ok (sub m 0 10 ++ norm_page (nth 10 m 0) :: sub m 11 13) else fail.
Proof.
  intros L. unfold event_fields. cbn [w_at f_enum f_if f_id f_w f_len bind Nat.add].
  change (f_len f_vreg) with 15%nat. unfold f_vreg. rewrite fseq_w.
  cbn [w_at f_nation f_string f_fun f_w f_len bind Nat.add].
  rewrite !sub_sub by lia. rewrite nth_sub by lia. cbn [Nat.add].
  destruct (nation_knownb (nth 9 m 0)); cbn [bind]; [|reflexivity].
  do 24 (destruct m as [|? m]; [discriminate|]). destruct m; [|discriminate]. reflexivity.
Qed.

Lemma event_writes cm now fin r : bytes_ok now -> length now = 24%nat -> length fin = 24%nat ->
  unmarshal_event cm (now, fin) = Ok r -> append_event r = event_out now fin.
Proof.
  intros H L LF. pose proof (event_implements cm now H L) as IM. unfold event_out.
  unfold unmarshal_event in *. cbn [fst snd] in *. cbn [f_event f_acc f_w] in IM.
  destruct (Z.eqb_spec (be (sub now 1 4)) 0) as [Z0|Z0].
  { intros E. apply Ok_inj in E. subst r. reflexivity. }
  intros E. apply bind_ok in E as (u1 & G1 & E). apply bind_ok in E as (t & Et & E).
  apply bind_ok in E as (b & Eb & E). apply bind_ok in E as (e & Ee & E). apply bind_ok in E as (v & Ev & E).
  apply Ok_inj in E. rewrite G1 in IM. cbn [bind] in IM. rewrite Et in IM. cbn [bind] in IM. rewrite Eb in IM. cbn [bind] in IM.
  rewrite Ee in IM. cbn [bind] in IM. rewrite Ev in IM. cbn [bind] in IM. destruct IM as [_ IW].
  rewrite event_w_at in IW by auto.
  unfold unmarshal_vreg in Ev. apply bind_ok in Ev as (u2 & _ & Ev). apply bind_ok in Ev as (num & En & Ev).
  apply Ok_inj in Ev. subst v. unfold unmarshal_string_value in En.
  assert (L14 : length (sub (sub now 9 15) 1 14) = 14%nat) by (rewrite sub_length; rewrite ?sub_length; lia).
  rewrite L14 in En. change (14 <? 2)%nat with false in En. cbv iota in En. apply Ok_inj in En. rewrite skipn_length, L14 in En.
  change (Z.of_nat (14 - 1)) with 13 in En. subst num.
  set (enc := encoding_of_code_page (nth 0 (sub (sub now 9 15) 1 14) 0)) in *.
  set (val := decode_with_code_page cm _ _) in *. clearbody enc val.
  set (nat_ := match unmarshal_enum nation_numeric_table (nth 0 (sub now 9 15) 0) with Ok n => n | _ => ENUM_UNRECOGNIZED end) in *.
  clearbody nat_. subst r. unfold alias_vreg in *. cbn [vr_nation vr_number option_map sv_encoding sv_length sv_value] in *.
  assert (W : forall raw, length raw = 14%nat ->
    append_event (mkEv true [] t b e (Some (mkVR nat_ (Some (mkSV (Some raw) enc (Some 13) val))))) =
    let* b' := append_time b in
    let* e' := append_time e in
    let* n := (if nat_ =? ENUM_UNRECOGNIZED then fail else marshal_enum nation_numeric_table nat_) in
    Ok ([marshal_enum_or_zero event_fault_type_table t] ++ b' ++ e' ++ [n; code_page_of_encoding enc] ++ sub raw 1 13)).
  { intros raw Lr. unfold append_event. cbn [ev_valid ev_begin ev_end ev_vehicle ev_type negb].
    destruct (append_time b); cbn [bind]; auto. destruct (append_time e); cbn [bind]; auto.
    unfold append_vreg. cbn [vr_nation vr_number].
    destruct (if nat_ =? ENUM_UNRECOGNIZED then fail else marshal_enum nation_numeric_table nat_); cbn [bind]; auto.
    unfold append_string_value. cbn [sv_raw sv_length sv_encoding odflt]. rewrite Lr.
    change (negb (14 <? 1)%nat) with true. change (Z.of_nat 14 =? 1 + 13) with true. cbn [guard bind].
    change (0 <? 14)%nat with true. cbv iota. cbn [bind]. do 4 f_equal.
    unfold set_byte, copy_into, sub. cbn [firstn Nat.sub length Nat.min Nat.add List.app].
    do 14 (destruct raw as [|? raw]; [discriminate|]). destruct raw; [|discriminate]. reflexivity. }
  rewrite W in IW |- * by (apply sub_length; lia).
  destruct (append_time b) as [b'| |] eqn:Tb; cbn [bind] in IW |- *;
    [|destruct (nation_knownb (nth 9 now 0)); [discriminate|exact IW]..].
  destruct (append_time e) as [e'| |] eqn:Te; cbn [bind] in IW |- *;
    [|destruct (nation_knownb (nth 9 now 0)); [discriminate|exact IW]..].
  destruct (if nat_ =? ENUM_UNRECOGNIZED then fail else marshal_enum nation_numeric_table nat_) as [n| |]; cbn [bind] in IW |- *;
    [|destruct (nation_knownb (nth 9 now 0)); [discriminate|exact IW]..].
  destruct (nation_knownb (nth 9 now 0)); [|discriminate]. apply Ok_inj in IW. f_equal.
  apply append_time_length in Tb as [Lb _]. apply append_time_length in Te as [Le _].
  rewrite !sub_sub in * by lia. cbn [Nat.add] in *.
  set (ty := marshal_enum_or_zero event_fault_type_table t) in *. set (cp := code_page_of_encoding enc) in *.
  assert (SP : forall x : bytes, [ty] ++ b' ++ e' ++ [n; cp] ++ x = ([ty] ++ b' ++ e' ++ [n; cp]) ++ x).
  { intros x. now rewrite <- !app_assoc. }
  assert (SP2 : forall x : bytes, sub now 0 10 ++ norm_page (nth 10 now 0) :: x = (sub now 0 10 ++ [norm_page (nth 10 now 0)]) ++ x).
  { intros x. now rewrite <- app_assoc. }
  rewrite SP, SP2 in *. apply app_cut in IW as [-> _]; auto.
  rewrite !app_length, Lb, Le, sub_length by lia. reflexivity.
Qed.

(** The records of [n] bytes, by number. *)
Lemma chunks_nth n d : (0 < n)%nat -> (2 * n <= start_buf_size)%nat ->
  chunks n d = map (fun i => sub d (i * n) n) (seq 0 (length d / n)).
Proof.
  intros N NS. destruct (scan_fixed_chunks n d) as (l & S1 & M). { pose proof start_le_max. lia. }
  rewrite scan_fixed_final in S1 by auto. apply Ok_inj in S1. subst l. now rewrite <- M, map_map.
Qed.

Definition events_out (d : bytes) : res bytes :=
  concat_res (fun i => event_out (sub d (i * 24) 24) (shown_in_the_end 24 d i)) (seq 0 (length d / 24)).

Lemma concat_map_res {A B} (f : A -> res B) (g : B -> res bytes) (h : A -> res bytes) l rs :
  map_res f l = Ok rs -> (forall a b, In a l -> f a = Ok b -> g b = h a) -> concat_res g rs = concat_res h l.
Proof.
  revert rs. induction l as [|a l IH]; intros rs M Q; cbn [map_res] in M.
  - apply Ok_inj in M. now subst rs.
  - apply bind_ok in M as (b & Eb & M). apply bind_ok in M as (bs & Ebs & M). apply Ok_inj in M. subst rs.
    cbn [concat_res]. rewrite (Q a b (or_introl eq_refl) Eb). rewrite (IH bs Ebs); auto.
    intros a' b' I. apply Q. now right.
Qed.

Lemma concat_res_map {A B} (f : B -> res bytes) (g : A -> B) l : concat_res f (map g l) = concat_res (fun a => f (g a)) l.
Proof. induction l as [|a l IH]; cbn [map concat_res]; auto. now rewrite IH. Qed.

Lemma rec_inside n (d : bytes) i : (0 < n)%nat -> (i < length d / n)%nat -> (i * n + n <= length d)%nat.
Proof. intros N I. pose proof (Nat.mul_div_le (length d) n ltac:(lia)). nia. Qed.

Lemma events_writes cm d rs : bytes_ok d -> unmarshal_events cm d = Ok rs -> append_events (Some rs) = events_out d.
Proof.
  intros H U. unfold unmarshal_events in U. apply bind_ok in U as (l & S1 & M).
  rewrite scan_fixed_final in S1 by (lia || apply fits_24). apply Ok_inj in S1. subst l.
  unfold append_events. cbn [odflt]. unfold events_out.
  rewrite <- (concat_res_map (fun p => event_out (fst p) (snd p)) (fun i => (sub d (i * 24) 24, shown_in_the_end 24 d i))).
  apply (concat_map_res _ _ _ _ _ M). intros p r I E. apply in_map_iff in I as (i & <- & I). apply in_seq in I.
  cbn [fst snd]. pose proof (rec_inside 24 d i ltac:(lia) ltac:(lia)).
  apply (event_writes cm); auto using bytes_ok_sub, sub_length, shown_length.
Qed.

(** Records written one after another. *)
Lemma concat_seq (f : nat -> res bytes) n c v : (forall i w, (i < c)%nat -> f i = Ok w -> length w = n) ->
  concat_res f (seq 0 c) = Ok v -> length v = (c * n)%nat /\ forall i, (i < c)%nat -> f i = Ok (sub v (i * n) n).
Proof.
  assert (G : forall k v, (forall i w, (k <= i < k + c)%nat -> f i = Ok w -> length w = n) ->
     concat_res f (seq k c) = Ok v -> length v = (c * n)%nat /\ forall i, (i < c)%nat -> f (k + i)%nat = Ok (sub v (i * n) n)).
  { clear v. induction c as [|c IH]; intros k v SZ E; cbn [seq concat_res] in E.
    - apply Ok_inj in E. subst v. split; [reflexivity|]. intros i I. lia.
    - apply bind_ok in E as (w & Ew & E). apply bind_ok in E as (ws & Ews & E). apply Ok_inj in E. subst v.
      pose proof (SZ k w ltac:(lia) Ew) as Lw.
      destruct (IH (S k) ws) as [L Q]; auto. { intros i x I. apply SZ. lia. }
      split. { rewrite app_length, Lw, L. reflexivity. }
      intros [|i] I.
      + rewrite Nat.add_0_r, Ew. f_equal. unfold sub. cbn [Nat.mul skipn]. symmetry. apply firstn_app_exact. auto.
      + replace (k + S i)%nat with (S k + i)%nat by lia. rewrite Q by lia. f_equal.
        replace (S i * n)%nat with (n + i * n)%nat by reflexivity. rewrite <- sub_skipn. f_equal.
        symmetry. apply skipn_app_exact. auto. }
  intros SZ E. destruct (G 0%nat v) as [L Q]; auto. intros i w I. apply SZ. lia.
Qed.


(** *** One record *)

(** The 24 bytes are an unused record. *)
Definition unused (r : bytes) : bool := be (sub r 1 4) =? 0.

(** A used record written back unchanged. *)
Definition settled (r : bytes) : Prop :=
  unused r = false /\ is_ok (unmarshal_enum event_fault_type_table (nth 0 r 0)) = true /\
  nation_knownb (nth 9 r 0) = true /\ norm_page (nth 10 r 0) = nth 10 r 0.

Lemma event_acc r : length r = 24%nat ->
  f_acc f_event r = unused r || is_ok (unmarshal_enum event_fault_type_table (nth 0 r 0)).
Proof.
  intros L. cbn [f_event f_acc]. unfold unused. destruct (be (sub r 1 4) =? 0); [reflexivity|].
  unfold event_fields. cbn [acc_at f_enum f_if f_id f_len f_acc Nat.add orb].
  rewrite nth_sub by lia. change (f_len f_vreg) with 15%nat. rewrite vreg_acc. cbn [Nat.add].
  now rewrite !andb_true_r.
Qed.

Lemma event_out_spec now fin w : bytes_ok now -> bytes_ok fin -> length now = 24%nat -> length fin = 24%nat ->
  f_acc f_event now = true -> event_out now fin = Ok w ->
  length w = 24%nat /\ bytes_ok w /\
  (if unused now then w = fin else settled w /\ sub w 11 13 = sub fin 11 13).
Proof.
  intros H HF L LF A. rewrite event_acc in A by auto. unfold event_out, unused in *.
  destruct (be (sub now 1 4) =? 0) eqn:Z0.
  { intros E. apply Ok_inj in E. subst w. auto. }
  cbn [orb] in A. destruct (nation_knownb (nth 9 now 0)) eqn:K; [|discriminate]. intros E. apply Ok_inj in E. subst w.
  assert (L10 : length (sub now 0 10) = 10%nat) by (apply sub_length; lia).
  assert (LE : length (sub now 0 10 ++ norm_page (nth 10 now 0) :: sub fin 11 13) = 24%nat).
  { rewrite app_length, L10. cbn [length]. rewrite sub_length; lia. }
  split; [exact LE|]. split.
  { apply bytes_ok_app. split; [now apply bytes_ok_sub|]. apply bytes_ok_cons. split; [apply norm_page_range|now apply bytes_ok_sub]. }
  assert (N : forall k, (k < 10)%nat -> nth k (sub now 0 10 ++ norm_page (nth 10 now 0) :: sub fin 11 13) 0 = nth k now 0).
  { intros k I. rewrite app_nth1 by lia. now rewrite nth_sub by lia. }
  assert (N10 : nth 10 (sub now 0 10 ++ norm_page (nth 10 now 0) :: sub fin 11 13) 0 = norm_page (nth 10 now 0)).
  { rewrite app_nth2 by lia. now rewrite L10. }
  split.
  - unfold settled. rewrite N10, !N by lia. rewrite norm_page_idem by (apply nth_byte_ok; auto; lia).
    split; [|auto]. unfold unused. rewrite <- Z0. f_equal. f_equal. unfold sub at 1.
    clear - L. do 24 (destruct now as [|? now]; [discriminate|]). reflexivity.
  - unfold sub at 1. rewrite skipn_app, L10, skipn_all2 by lia. cbn [Nat.sub skipn List.app].
    apply firstn_all2. rewrite sub_length; lia.
Qed.

(** A settled record, with the text it is given. *)
Lemma event_out_settled r fin : length r = 24%nat -> length fin = 24%nat -> settled r -> sub fin 11 13 = sub r 11 13 ->
  event_out r fin = Ok r.
Proof.
  intros L LF (U & _ & K & NP) T. unfold event_out. unfold unused in U. rewrite U, K, NP, T. f_equal.
  clear - L. do 24 (destruct r as [|? r]; [discriminate|]). destruct r; [|discriminate]. reflexivity.
Qed.

(** *** The file *)

Lemma bytes_ok_nth (d : bytes) : (forall p, (p < length d)%nat -> byte_ok (nth p d 0)) -> bytes_ok d.
Proof.
  induction d as [|b d IH]; intros H; [constructor|]. apply bytes_ok_cons. split; [apply (H 0%nat); simpl; lia|].
  apply IH. intros p P. apply (H (S p)). simpl. lia.
Qed.

Lemma nth_byte (d : bytes) p : bytes_ok d -> byte_ok (nth p d 0).
Proof.
  intros H. destruct (Nat.lt_ge_cases p (length d)); [now apply nth_byte_ok|].
  rewrite nth_overflow by auto. unfold byte_ok. lia.
Qed.

Lemma shown_ok n d i : bytes_ok d -> bytes_ok (shown_in_the_end n d i).
Proof.
  intros H. unfold shown_in_the_end. apply Forall_forall. intros b I. apply in_map_iff in I as (p & <- & _).
  unfold final_byte. repeat match goal with |- context [if ?x then _ else _] => destruct x end; apply nth_byte; auto. constructor.
Qed.

Lemma shown_place n d i j : (i mod (start_buf_size / n) = j mod (start_buf_size / n))%nat ->
  shown_in_the_end n d i = shown_in_the_end n d j.
Proof. intros E. unfold shown_in_the_end. now rewrite E. Qed.

Definition rec24 (d : bytes) (i : nat) : bytes := sub d (i * 24) 24.

Lemma events_acc d : file_acc 0 f_event d = true <->
  forall i, (i < length d / 24)%nat -> f_acc f_event (rec24 d i) = true.
Proof.
  unfold file_acc, body_acc. cbn [Nat.leb andb]. change (skipn 0 d) with d. change (f_len f_event) with 24%nat.
  rewrite chunks_nth by (lia || apply fits_24). rewrite forallb_forall. split.
  - intros H i I. apply H. apply in_map_iff. exists i. split; auto. apply in_seq. lia.
  - intros H r I. apply in_map_iff in I as (i & <- & I). apply in_seq in I. apply H. lia.
Qed.

Lemma events_out_spec d v : bytes_ok d -> file_acc 0 f_event d = true -> events_out d = Ok v ->
  length v = (length d / 24 * 24)%nat /\ bytes_ok v /\
  forall i, (i < length d / 24)%nat ->
    event_out (rec24 d i) (shown_in_the_end 24 d i) = Ok (rec24 v i) /\ length (rec24 v i) = 24%nat /\ bytes_ok (rec24 v i) /\
    if unused (rec24 d i) then rec24 v i = shown_in_the_end 24 d i
    else settled (rec24 v i) /\ sub (rec24 v i) 11 13 = sub (shown_in_the_end 24 d i) 11 13.
Proof.
  intros H A E. rewrite events_acc in A.
  assert (SP : forall i w, (i < length d / 24)%nat -> event_out (rec24 d i) (shown_in_the_end 24 d i) = Ok w ->
    length w = 24%nat /\ bytes_ok w /\
    (if unused (rec24 d i) then w = shown_in_the_end 24 d i
     else settled w /\ sub w 11 13 = sub (shown_in_the_end 24 d i) 11 13)).
  { intros i w I W. pose proof (rec_inside 24 d i ltac:(lia) I).
    apply event_out_spec; auto using shown_ok, shown_length. { now apply bytes_ok_sub. } { now apply sub_length. } }
  unfold events_out in E.
  destruct (concat_seq _ 24 _ v (fun i w I W => proj1 (SP i w I W)) E) as [L Q].
  split; auto. split.
  - apply bytes_ok_nth. intros p P. rewrite L in P.
    pose proof (Nat.div_mod p 24 ltac:(lia)) as D. pose proof (Nat.mod_upper_bound p 24 ltac:(lia)) as U.
    assert (I : (p / 24 < length d / 24)%nat) by (apply Nat.div_lt_upper_bound; lia).
    destruct (SP _ _ I (Q _ I)) as (_ & B & _).
    replace p with (p / 24 * 24 + p mod 24)%nat by lia. rewrite <- (nth_sub v (p / 24 * 24) 24) by lia.
    now apply nth_byte.
  - intros i I. split; [apply (Q i I)|]. destruct (SP _ _ I (Q _ I)) as (L1 & B1 & R1). auto.
Qed.

(** What is written is read again exactly if the bytes shown in place of unused
    records are acceptable, and written again exactly if they also name a nation. *)
Lemma events_again d v : bytes_ok d -> file_acc 0 f_event d = true -> events_out d = Ok v ->
  (file_acc 0 f_event v = true <-> forall i, (i < length d / 24)%nat -> unused (rec24 d i) = true ->
     f_acc f_event (shown_in_the_end 24 d i) = true) /\
  (file_acc 0 f_event v = true -> is_ok (events_out v) = true <->
     forall i, (i < length d / 24)%nat -> unused (rec24 d i) = true ->
     unused (shown_in_the_end 24 d i) = true \/ nation_knownb (nth 9 (shown_in_the_end 24 d i) 0) = true).
Proof.
  intros H A E. destruct (events_out_spec d v H A E) as (L & B & R).
  assert (C : (length v / 24 = length d / 24)%nat) by (rewrite L; apply Nat.div_mul; lia).
  split.
  - rewrite events_acc, C. split.
    + intros Q i I U. specialize (Q i I). destruct (R i I) as (_ & _ & _ & X). rewrite U in X. now rewrite <- X.
    + intros Q i I. specialize (Q i I). destruct (R i I) as (_ & L1 & _ & X). destruct (unused (rec24 d i)).
      * rewrite X. auto.
      * rewrite event_acc by auto. destruct X as [(_ & T & _) _]. rewrite T. apply orb_true_r.
  - intros A2. unfold events_out. rewrite is_ok_concat, C, Forall_forall.
    assert (K : forall i, (i < length d / 24)%nat ->
      is_ok (event_out (rec24 v i) (shown_in_the_end 24 v i)) = unused (rec24 v i) || nation_knownb (nth 9 (rec24 v i) 0)).
    { intros i _. unfold event_out, unused. destruct (_ =? 0); auto. destruct (nation_knownb _); auto. }
    split.
    + intros Q i I U. specialize (Q i ltac:(apply in_seq; lia)). fold (rec24 v i) in Q. rewrite K in Q by auto.
      destruct (R i I) as (_ & _ & _ & X). rewrite U in X. rewrite <- X. now apply orb_true_iff.
    + intros Q i I. apply in_seq in I. assert (I' : (i < length d / 24)%nat) by lia. specialize (Q i I').
      fold (rec24 v i). rewrite K by auto. destruct (R i I') as (_ & _ & _ & X). destruct (unused (rec24 d i)).
      * rewrite X. apply orb_true_iff. auto.
      * destruct X as [(_ & _ & T & _) _]. rewrite T. apply orb_true_r.
Qed.

(** The second output is its own normal form. *)
Lemma events_two_cycles d1 d2 d3 : bytes_ok d1 -> file_acc 0 f_event d1 = true -> events_out d1 = Ok d2 ->
  file_acc 0 f_event d2 = true -> events_out d2 = Ok d3 ->
  file_acc 0 f_event d3 = true /\ events_out d3 = Ok d3.
Proof.
  intros H1 A1 E1 A2 E2.
  destruct (events_out_spec d1 d2 H1 A1 E1) as (L2 & H2 & R1).
  destruct (events_out_spec d2 d3 H2 A2 E2) as (L3 & H3 & R2).
  set (c := (length d1 / 24)%nat) in *.
  assert (C2 : (length d2 / 24 = c)%nat) by (rewrite L2; apply Nat.div_mul; lia).
  rewrite C2 in *. assert (C3 : (length d3 / 24 = c)%nat) by (rewrite L3; apply Nat.div_mul; lia).
  assert (W2 : (length d2 mod 24 = 0)%nat) by (rewrite L2; apply Nat.mod_mul; lia).
  assert (W3 : (length d3 mod 24 = 0)%nat) by (rewrite L3; apply Nat.mod_mul; lia).
  (* the last record at the place of [i] *)
  assert (J : forall i, (i < c)%nat -> exists j, (j < c)%nat /\ shown_in_the_end 24 d1 j = shown_in_the_end 24 d1 i /\
     shown_in_the_end 24 d2 i = rec24 d2 j /\ shown_in_the_end 24 d2 j = rec24 d2 j /\ shown_in_the_end 24 d3 i = rec24 d3 j).
  { intros i I. destruct (last_in_place 24 d1 i ltac:(lia) fits_24 I) as (j & Jc & JM & JL). fold c in Jc, JL.
    exists j. split; auto. split; [now apply shown_place|].
    unfold rec24. repeat split; apply shown_whole; rewrite ?C2, ?C3; auto; try lia; apply fits_24. }
  (* the record last at its place keeps its text *)
  assert (T : forall j, (j < c)%nat -> shown_in_the_end 24 d2 j = rec24 d2 j -> sub (rec24 d3 j) 11 13 = sub (rec24 d2 j) 11 13).
  { intros j Jc SJ. destruct (R2 j Jc) as (_ & _ & _ & X). rewrite SJ in X. destruct (unused (rec24 d2 j)); [now rewrite X|apply X]. }
  assert (S3 : forall i, (i < c)%nat -> settled (rec24 d3 i) \/ (exists j, (j < c)%nat /\ unused (rec24 d2 i) = true /\
      shown_in_the_end 24 d3 i = rec24 d3 j /\ rec24 d3 i = rec24 d3 j /\ f_acc f_event (rec24 d3 j) = true)).
  { intros i I. destruct (R2 i I) as (_ & LI & _ & X). destruct (unused (rec24 d2 i)) eqn:U; [|left; apply X].
    destruct (J i I) as (j & Jc & P1 & P2 & P3 & P4). rewrite P2 in X.
    assert (Lj : length (rec24 d2 j) = 24%nat) by apply (R1 j Jc).
    destruct (R1 i I) as (_ & _ & _ & X1). destruct (unused (rec24 d1 i)).
    2:{ destruct X1 as [(X1 & _) _]. congruence. }
    right. exists j. split; auto. split; auto. split; auto.
    assert (EJ : rec24 d3 j = rec24 d2 j).
    { destruct (R2 j Jc) as (O2 & _ & _ & Y). rewrite P3 in O2, Y. destruct (unused (rec24 d2 j)) eqn:UJ; auto.
      destruct (R1 j Jc) as (_ & _ & _ & Y1). destruct (unused (rec24 d1 j)).
      - rewrite P1, <- X1 in Y1. rewrite Y1 in UJ. congruence.
      - rewrite event_out_settled in O2 by (auto; apply Y1). apply Ok_inj in O2. auto. }
    rewrite EJ. split; auto. rewrite events_acc, C2 in A2. auto. }
  split.
  - rewrite events_acc, C3. intros i I. assert (L : length (rec24 d3 i) = 24%nat) by apply (R2 i I).
    destruct (S3 i I) as [(U & T0 & _)|(j & Jc & _ & _ & -> & AJ)]; auto.
    rewrite event_acc by auto. rewrite T0. apply orb_true_r.
  - assert (EV : forall i, (i < c)%nat -> event_out (rec24 d3 i) (shown_in_the_end 24 d3 i) = Ok (rec24 d3 i)).
    { intros i I. destruct (J i I) as (j & Jc & P1 & P2 & P3 & P4).
      assert (L : length (rec24 d3 i) = 24%nat) by apply (R2 i I).
      assert (LJ : length (rec24 d3 j) = 24%nat) by apply (R2 j Jc).
      destruct (S3 i I) as [SE|(k & Kc & U & Q1 & Q2 & _)].
      - apply event_out_settled; auto. rewrite P4, (T j Jc P3).
        destruct (R2 i I) as (_ & _ & _ & X). destruct (unused (rec24 d2 i)).
        + now rewrite X, P2.
        + destruct X as [_ X]. now rewrite X, P2.
      - rewrite Q1, <- Q2. destruct (unused (rec24 d3 i)) eqn:U3.
        + unfold event_out. unfold unused in U3. now rewrite U3.
        + destruct (R2 i I) as (_ & _ & _ & X). rewrite U in X.
          (* the record shown is a used one, written as itself *)
          destruct (R1 i I) as (_ & _ & _ & X1). destruct (unused (rec24 d1 i)).
          2:{ destruct X1 as [(X1 & _) _]. congruence. }
          destruct (R1 j Jc) as (_ & _ & _ & Y1). destruct (unused (rec24 d1 j)) eqn:U1.
          { rewrite P1, <- X1 in Y1. rewrite X, P2, Y1, U in U3. discriminate. }
          apply event_out_settled; auto. rewrite X, P2. apply Y1. }
    unfold events_out. rewrite C3.
    assert (CC : forall k n, (k + n <= c)%nat ->
      concat_res (fun i => event_out (sub d3 (i * 24) 24) (shown_in_the_end 24 d3 i)) (seq k n) = Ok (sub d3 (k * 24) (n * 24))).
    { intros k n; revert k. induction n as [|n IH]; intros k I; cbn [seq concat_res].
      - unfold sub. now rewrite firstn_O.
      - fold (rec24 d3 k). rewrite EV by lia. cbn [bind]. rewrite IH by lia. cbn [bind]. f_equal. unfold rec24.
        replace (S n * 24)%nat with (24 + n * 24)%nat by lia. rewrite <- (sub_join d3 (k * 24) 24 (n * 24) (S k * 24)) by lia. reflexivity. }
    rewrite CC by lia. f_equal. unfold sub. cbn [Nat.mul skipn]. apply firstn_all2. lia.
Qed.

(** ** Vehicle units *)

Definition unit_out (b : bytes) (i : nat) : bytes := sub b (i * 10) 5 ++ sub (shown_in_the_end 10 b i) 5 5.

Definition units_out (d : bytes) : res bytes :=
  let* b := concat_res (fun i => Ok (unit_out (skipn 2 d) i)) (seq 0 (length (skipn 2 d) / 10)) in
  Ok (sub d 0 2 ++ b).

Lemma concat_ok_total (f : nat -> bytes) l : concat_res (fun i => Ok (f i)) l = Ok (concat (map f l)).
Proof. induction l as [|a l IH]; cbn [concat_res map concat bind]; auto. rewrite IH. reflexivity. Qed.

Lemma units_writes d x : bytes_ok d -> unmarshal_units_used d = Ok x -> append_units_used (Some x) = units_out d.
Proof.
  intros H U. unfold unmarshal_units_used in U.
  apply bind_ok in U as (u1 & G1 & U). apply bind_ok in U as (u2 & G2 & U).
  apply bind_ok in U as (l & S1 & U). apply bind_ok in U as (rs & M & U). apply Ok_inj in U. subst x.
  apply guard_ok in G1. destruct (Nat.ltb_spec (length d) 2) as [|L2]; [discriminate|].
  rewrite scan_fixed_final in S1 by (lia || apply fits_10). apply Ok_inj in S1. subst l.
  cbn [append_units_used uu_newest uu_records]. unfold units_out.
  assert (HD : to_be 2 (u16 (be (sub d 0 2))) = sub d 0 2).
  { unfold u16. change 65536 with (256 ^ Z.of_nat 2). rewrite to_be_mod.
    apply to_be_be; [now apply bytes_ok_sub|apply sub_length; lia]. }
  rewrite HD.
  assert (E : concat_res append_unit_record rs =
    concat_res (fun i => Ok (unit_out (skipn 2 d) i)) (seq 0 (length (skipn 2 d) / 10))).
  { set (b := skipn 2 d) in *. assert (B : bytes_ok b) by now apply bytes_ok_skipn. clearbody b.
    rewrite (concat_map_res _ append_unit_record (fun p => Ok (sub (fst p) 0 5 ++ sub (snd p) 5 5)) _ _ M).
    2:{ intros p r I E. apply in_map_iff in I as (i & <- & I). apply in_seq in I. cbn [fst snd].
        pose proof (rec_inside 10 b i ltac:(lia) ltac:(lia)).
        apply unit_rewritten; auto using bytes_ok_sub, sub_length, shown_length. }
    rewrite concat_res_map. cbn [fst snd]. rewrite !concat_ok_total. f_equal. f_equal. apply map_ext. intros i.
    unfold unit_out. rewrite sub_sub by lia. now rewrite Nat.add_0_r. }
  rewrite E. reflexivity.
Qed.

Lemma units_out_spec d : bytes_ok d -> (2 <= length d)%nat -> file_whole 2 10 d = true ->
  exists v, units_out d = Ok v /\ length v = length d /\ bytes_ok v /\ sub v 0 2 = sub d 0 2 /\
  forall i, (i < length (skipn 2 d) / 10)%nat -> sub (skipn 2 v) (i * 10) 10 = unit_out (skipn 2 d) i.
Proof.
  intros H L W. unfold file_whole in W. apply Nat.eqb_eq in W. unfold units_out.
  set (b := skipn 2 d). assert (LB : length b = (length d - 2)%nat) by apply skipn_length.
  assert (BB : bytes_ok b) by now apply bytes_ok_skipn. rewrite <- LB in W.
  destruct (concat_res (fun i => Ok (unit_out b i)) (seq 0 (length b / 10))) as [v| |] eqn:E;
    [|rewrite concat_ok_total in E; discriminate..].
  assert (SZ : forall i w, (i < length b / 10)%nat -> Ok (unit_out b i) = Ok w -> length w = 10%nat).
  { intros i w I Q. apply Ok_inj in Q. subst w. pose proof (rec_inside 10 b i ltac:(lia) I).
    unfold unit_out. rewrite app_length, !sub_length; rewrite ?shown_length; lia. }
  destruct (concat_seq _ 10 _ v SZ E) as [LV Q].
  assert (CB : (length b / 10 * 10 = length b)%nat) by (pose proof (Nat.div_mod (length b) 10 ltac:(lia)); lia).
  cbn [bind]. exists (sub d 0 2 ++ v).
  assert (L2 : length (sub d 0 2) = 2%nat) by (apply sub_length; lia).
  assert (SK : skipn 2 (sub d 0 2 ++ v) = v) by (now apply skipn_app_exact).
  assert (VO : bytes_ok v).
  { rewrite concat_ok_total in E. apply Ok_inj in E. subst v. apply Forall_concat. rewrite Forall_forall. intros r I.
    apply in_map_iff in I as (i & <- & _). unfold unit_out. apply bytes_ok_app.
    split; apply bytes_ok_sub; auto using shown_ok. }
  split; [reflexivity|]. split; [rewrite app_length, L2; lia|]. split; [apply bytes_ok_app; split; [now apply bytes_ok_sub|exact VO]|].
  split. { unfold sub at 1. cbn [skipn]. now apply firstn_app_exact. }
  intros i I. rewrite SK. specialize (Q i I). apply Ok_inj in Q. auto.
Qed.

(** One writing settles the list. *)
Lemma units_again d v : bytes_ok d -> (2 <= length d)%nat -> file_whole 2 10 d = true -> units_out d = Ok v ->
  units_out v = Ok v.
Proof.
  intros H L W E. destruct (units_out_spec d H L W) as (v' & E' & LV & BV & HV & R). rewrite E in E'. apply Ok_inj in E'. subst v'.
  assert (WV : file_whole 2 10 v = true) by (unfold file_whole in *; now rewrite LV).
  destruct (units_out_spec v BV ltac:(lia) WV) as (w & Ew & LW & BW & HW & R2). rewrite Ew. f_equal.
  assert (LB : length (skipn 2 d) = (length d - 2)%nat) by apply skipn_length.
  assert (LBV : length (skipn 2 v) = length (skipn 2 d)) by (rewrite !skipn_length; lia).
  rewrite LBV in R2.
  assert (WH : (length (skipn 2 d) mod 10 = 0)%nat) by (unfold file_whole in W; apply Nat.eqb_eq in W; now rewrite LB).
  set (c := (length (skipn 2 d) / 10)%nat) in *.
  assert (CB : (c * 10 = length (skipn 2 d))%nat) by (unfold c; pose proof (Nat.div_mod (length (skipn 2 d)) 10 ltac:(lia)); lia).
  assert (K : forall i, (i < c)%nat -> unit_out (skipn 2 v) i = unit_out (skipn 2 d) i).
  { intros i I. destruct (last_in_place 10 (skipn 2 d) i ltac:(lia) fits_10 I) as (j & Jc & JM & JL). fold c in Jc, JL.
    pose proof (rec_inside 10 (skipn 2 d) i ltac:(lia) I) as I1. pose proof (rec_inside 10 (skipn 2 d) j ltac:(lia) Jc) as J1.
    assert (SD : forall k, (k < c)%nat -> (k mod (start_buf_size / 10) = j mod (start_buf_size / 10))%nat ->
        shown_in_the_end 10 (skipn 2 d) k = sub (skipn 2 d) (j * 10) 10).
    { intros k Kc KM. apply shown_whole; auto; try lia; apply fits_10. }
    unfold unit_out at 1.
    rewrite (shown_whole 10 (skipn 2 v) i j); rewrite ?LBV; auto; try lia; try apply fits_10.
    rewrite (R j Jc).
    assert (E5 : sub (skipn 2 v) (i * 10) 5 = sub (skipn 2 d) (i * 10) 5).
    { replace (sub (skipn 2 v) (i * 10) 5) with (sub (sub (skipn 2 v) (i * 10) 10) 0 5) by (rewrite sub_sub by lia; f_equal; lia).
      rewrite (R i I). unfold unit_out, sub at 1. rewrite skipn_O. apply firstn_app_exact. apply sub_length. lia. }
    rewrite E5. unfold unit_out. f_equal. rewrite (SD j Jc eq_refl), (SD i I) by auto.
    assert (L5 : length (sub (skipn 2 d) (j * 10) 5) = 5%nat) by (apply sub_length; lia).
    unfold sub at 1. rewrite P_Utf8.skipn_app_exact by auto. apply firstn_all2. rewrite !sub_length; rewrite ?sub_length; lia. }
  assert (FW : skipn 2 w = skipn 2 v).
  { apply (nth_ext _ _ 0 0). { rewrite !skipn_length. lia. }
    intros p P. rewrite skipn_length, LW, LV, <- LB, <- CB in P.
    pose proof (Nat.div_mod p 10 ltac:(lia)) as D. pose proof (Nat.mod_upper_bound p 10 ltac:(lia)) as U.
    assert (I : (p / 10 < c)%nat) by (apply Nat.div_lt_upper_bound; lia).
    replace p with (p / 10 * 10 + p mod 10)%nat by lia.
    rewrite <- !(nth_sub _ (p / 10 * 10) 10) by lia. rewrite (R2 _ I), (R _ I), (K _ I). reflexivity. }
  rewrite <- (firstn_skipn 2 w), <- (firstn_skipn 2 v). change (sub w 0 2 ++ skipn 2 w = sub v 0 2 ++ skipn 2 v).
  now rewrite HW, FW.
Qed.

(** ** Identification *)

Lemma rune_lead r : scalar r ->
  (exists b, encode_rune r = [b] /\ b < 128) \/
  (exists b c, encode_rune r = [b; c] /\ 192 <= b < 224 /\ 128 <= c < 192) \/
  (exists b c d, encode_rune r = [b; c; d] /\ 224 <= b < 240 /\ 128 <= c < 192 /\ 128 <= d < 192) \/
  (exists b c d e, encode_rune r = [b; c; d; e] /\ 240 <= b /\ 128 <= c < 192 /\ 128 <= d < 192 /\ 128 <= e < 192).
Proof.
  intros H. rewrite encode_rune_scalar by auto. unfold scalar in H.
  destruct (Z.ltb_spec r 128); [left; exists r; split; auto|right].
  destruct (Z.ltb_spec r 2048); [left; do 2 eexists; split; [reflexivity|lia]|right].
  destruct (Z.ltb_spec r 65536).
  - left. do 3 eexists; split; [reflexivity|lia].
  - right. do 4 eexists; split; [reflexivity|lia].
Qed.

(** The bytes of a rune that was cut are no rune. *)
Lemma decode_last_cut q r m : bytes_ok q -> scalar r -> (0 < m < length (encode_rune r))%nat ->
  decode_last_rune (q ++ firstn m (encode_rune r)) = (rune_error, 1%nat).
Proof.
  intros Q R M.
  destruct (decode_last_spec (q ++ firstn m (encode_rune r))) as (x & n & E & _ & C).
  { apply bytes_ok_app. split; auto. apply bytes_ok_firstn, encode_rune_bytes. }
  { intros X. apply app_eq_nil in X as [_ X]. apply (f_equal (@length Z)) in X. rewrite firstn_length in X. simpl in X. lia. }
  rewrite E. destruct C as [[-> ->]|(SX & _ & EQ)]; [reflexivity|]. exfalso.
  set (q' := firstn (length (q ++ firstn m (encode_rune r)) - n) (q ++ firstn m (encode_rune r))) in EQ. clearbody q'. clear E.
  apply (f_equal (@rev Z)) in EQ. rewrite !rev_app_distr in EQ.
  destruct (rune_lead r R) as [(b & Er & ?)|[(b & c & Er & ? & ?)|[(b & c & d & Er & ? & ? & ?)|(b & c & d & e & Er & ? & ? & ? & ?)]]];
    rewrite Er in *; cbn [length] in M;
    destruct (rune_lead x SX) as [(b' & Ex & ?)|[(b' & c' & Ex & ? & ?)|[(b' & c' & d' & Ex & ? & ? & ?)|(b' & c' & d' & e' & Ex & ? & ? & ? & ?)]]];
    rewrite Ex in EQ;
    (destruct m as [|[|[|[|m]]]]; cbn [firstn rev List.app] in EQ; try lia; injection EQ; intros; lia).
Qed.

Lemma trim_right_cut q r m f : bytes_ok q -> scalar r -> (m < length (encode_rune r))%nat ->
  trim_right (m + f) (q ++ firstn m (encode_rune r)) = trim_right f q.
Proof.
  intros Q R. induction m as [|m IH]; intros M; [rewrite firstn_O, app_nil_r; reflexivity|].
  pose proof (decode_last_cut q r (S m) Q R ltac:(lia)) as D.
  cbn [Nat.add trim_right]. destruct (q ++ firstn (S m) (encode_rune r)) eqn:E.
  { apply app_eq_nil in E as [_ E]. apply (f_equal (@length Z)) in E. rewrite firstn_length in E. change (length (@nil Z)) with 0%nat in E. lia. }
  rewrite <- E in *. rewrite D. change (in_cutset rune_error) with true. cbv iota.
  rewrite <- (IH ltac:(lia)). f_equal.
  rewrite app_length, firstn_length, firstn_app.
  replace (length q + Nat.min (S m) (length (encode_rune r)) - 1 - length q)%nat with m by lia.
  rewrite firstn_firstn. replace (Nat.min m (S m)) with m by lia. f_equal. apply firstn_all2. lia.
Qed.

Lemma cut_text rs : Forall scalar rs -> forall k, (k <= length (utf8 rs))%nat ->
  exists ps r m, Forall scalar ps /\ scalar r /\ (m < length (encode_rune r))%nat /\
    firstn k (utf8 rs) = utf8 ps ++ firstn m (encode_rune r).
Proof.
  induction 1 as [|x rs X F IH]; intros k K.
  - cbn in K. exists [], 0, 0%nat. assert (k = 0)%nat as -> by lia. repeat split; try constructor; unfold scalar; lia.
  - change (utf8 (x :: rs)) with (encode_rune x ++ utf8 rs) in *. rewrite app_length in K.
    destruct (Nat.lt_ge_cases k (length (encode_rune x))) as [L|L].
    + exists [], x, k. repeat split; auto. cbn [utf8 map concat List.app]. rewrite firstn_app.
      replace (k - length (encode_rune x))%nat with 0%nat by lia. now rewrite firstn_O, app_nil_r.
    + destruct (IH (k - length (encode_rune x))%nat ltac:(lia)) as (ps & r & m & Fp & R & M & E).
      exists (x :: ps), r, m. split; [constructor; auto|]. split; auto. split; auto.
      change (utf8 (x :: ps)) with (encode_rune x ++ utf8 ps). rewrite <- app_assoc, <- E.
      rewrite firstn_app. f_equal. apply firstn_all2. lia.
Qed.

Lemma trim_right_text f : forall rs, Forall scalar rs -> exists ps, Forall scalar ps /\ trim_right f (utf8 rs) = utf8 ps /\
  (length (utf8 ps) <= length (utf8 rs))%nat.
Proof.
  induction f as [|f IH]; intros rs F0; [exists rs; auto|].
  destruct rs as [|y rs']; [exists []; auto|].
  destruct (@exists_last _ (y :: rs') ltac:(discriminate)) as (rs & x & E). rewrite E in *. clear E y rs'.
  apply Forall_app in F0 as [F0 X]. inversion X as [|? ? SX _]; subst.
  assert (EU : utf8 (rs ++ [x]) = utf8 rs ++ encode_rune x).
  { rewrite utf8_app. f_equal. unfold utf8. cbn [map concat]. apply app_nil_r. }
  rewrite EU. pose proof (encode_rune_length x) as LX.
  cbn [trim_right]. destruct (utf8 rs ++ encode_rune x) eqn:E.
  { apply (f_equal (@length Z)) in E. rewrite app_length in E. simpl in E. lia. }
  rewrite <- E. rewrite decode_last_encode by auto. destruct (in_cutset x).
  - destruct (IH rs F0) as (ps & FP & EP & LP). exists ps. split; auto. rewrite app_length.
    replace (length (utf8 rs) + length (encode_rune x) - length (encode_rune x))%nat with (length (utf8 rs)) by lia.
    rewrite firstn_app_exact by reflexivity. split; auto. lia.
  - exists (rs ++ [x]). rewrite EU. split; [apply Forall_app; auto|]. split; [exact E|rewrite E; apply Nat.le_refl].
Qed.

Lemma trim_left_text f : forall rs, Forall scalar rs -> exists ps, Forall scalar ps /\ trim_left f (utf8 rs) = utf8 ps /\
  (length (utf8 ps) <= length (utf8 rs))%nat.
Proof.
  induction f as [|f IH]; intros rs F0; [exists rs; auto|].
  destruct rs as [|x rs]; [exists []; auto|]. inversion F0 as [|? ? SX F1]; subst.
  change (utf8 (x :: rs)) with (encode_rune x ++ utf8 rs). pose proof (encode_rune_length x) as LX.
  cbn [trim_left]. destruct (encode_rune x ++ utf8 rs) eqn:E.
  { apply (f_equal (@length Z)) in E. rewrite app_length in E. simpl in E. lia. }
  rewrite <- E. rewrite decode_encode by auto. destruct (in_cutset x).
  - destruct (IH rs F1) as (ps & FP & EP & LP). exists ps. split; auto.
    rewrite P_Utf8.skipn_app_exact by reflexivity. rewrite app_length. split; auto. lia.
  - exists (x :: rs). split; [auto|]. split; [reflexivity|apply Nat.le_refl].
Qed.

(** Clean text cut to [k] bytes is read as text of at most [k] bytes. *)
Lemma cut_fits t k : clean_text t -> (length (number_text (firstn k t)) <= k)%nat.
Proof.
  intros (rs & F0 & -> & _). unfold number_text.
  destruct (Nat.le_gt_cases (length (utf8 rs)) k) as [L|L].
  - rewrite firstn_all2 by auto. unfold trim.
    destruct (trim_right_text (length (utf8 rs)) rs F0) as (ps & FP & -> & LP).
    destruct (trim_left_text (length (utf8 ps)) ps FP) as (qs & FQ & -> & LQ).
    unfold make_valid. rewrite valid_utf8_text by auto. lia.
  - destruct (cut_text rs F0 k ltac:(lia)) as (ps & r & m & FP & R & M & E).
    assert (LE : (length (utf8 ps) <= k)%nat).
    { apply (f_equal (@length Z)) in E. rewrite firstn_length, app_length in E. lia. }
    rewrite E. unfold trim. rewrite app_length, firstn_length.
    replace (length (utf8 ps) + Nat.min m (length (encode_rune r)))%nat with (m + length (utf8 ps))%nat by lia.
    rewrite trim_right_cut by (auto; apply utf8_bytes).
    destruct (trim_right_text (length (utf8 ps)) ps FP) as (qs & FQ & -> & LQ).
    destruct (trim_left_text (length (utf8 qs)) qs FQ) as (ss & FS & -> & LS).
    unfold make_valid. rewrite valid_utf8_text by auto. lia.
Qed.

Lemma w_ident_fits k s : bytes_ok s -> (length (number_text (w_ident k s)) <= k)%nat.
Proof.
  intros H. pose proof (number_text_clean s H) as C. unfold w_ident, pad_spaces.
  destruct (Nat.le_gt_cases (length (number_text s)) k) as [L|L].
  - rewrite firstn_all2 by auto. unfold number_text at 1. rewrite clean_padded by auto. exact L.
  - rewrite firstn_length. replace (k - Nat.min k (length (number_text s)))%nat with 0%nat by lia.
    cbn [repeat]. rewrite app_nil_r. now apply cut_fits.
Qed.

Lemma number_again n : bytes_ok n -> length n = 16%nat ->
  length (w_number n) = 16%nat /\ bytes_ok (w_number n) /\ number_fits (w_number n) = true.
Proof.
  intros H L. split; [now apply w_number_length|].
  unfold w_number. destruct (number_digits n) eqn:D.
  - set (a := w_ident 14 (sub n 0 14)).
    assert (La : length a = 14%nat) by apply w_ident_length.
    assert (Ls : length (sub n 14 2) = 2%nat) by (apply sub_length; lia).
    split; [apply bytes_ok_app; split; [apply w_ident_ok|]; now apply bytes_ok_sub|].
    assert (D' : number_digits (a ++ sub n 14 2) = true).
    { unfold number_digits in *.
      pose proof (list16 a (sub n 14 2) 0 La Ls ltac:(lia)) as N0.
      pose proof (list16 a (sub n 14 2) 1 La Ls ltac:(lia)) as N1.
      cbn [Nat.add] in N0, N1. rewrite N0, N1, !nth_sub by lia. exact D. }
    unfold number_fits, number_len. rewrite D'.
    replace (sub (a ++ sub n 14 2) 0 14) with a by (unfold sub at 1; cbn [skipn]; symmetry; now apply firstn_app_exact).
    apply Nat.leb_le. apply w_ident_fits. now apply bytes_ok_sub.
  - set (a := w_ident 13 (sub n 0 13)).
    assert (La : length a = 13%nat) by apply w_ident_length.
    destruct (w_index_spec (nth 13 n 0) ltac:(apply nth_byte_ok; auto; lia)) as (E13 & I13 & R13).
    destruct (w_index_spec (nth 14 n 0) ltac:(apply nth_byte_ok; auto; lia)) as (E14 & I14 & R14).
    destruct (w_index_spec (nth 15 n 0) ltac:(apply nth_byte_ok; auto; lia)) as (E15 & I15 & R15).
    set (m := a ++ [w_index (nth 13 n 0); w_index (nth 14 n 0); w_index (nth 15 n 0)]).
    assert (N14 : nth 14 m 0 = w_index (nth 14 n 0)) by (unfold m; rewrite app_nth2, La by lia; reflexivity).
    assert (N15 : nth 15 m 0 = w_index (nth 15 n 0)) by (unfold m; rewrite app_nth2, La by lia; reflexivity).
    assert (DI : forall b, digitb (if in_cutset b || (128 <=? b) then 0 else b) = true -> digitb b = true).
    { intros b. destruct (in_cutset b || (128 <=? b)); intros Q; [discriminate Q|exact Q]. }
    assert (D' : number_digits m = false).
    { unfold number_digits in *. rewrite N14, N15, E14, E15.
      apply not_true_iff_false. intros Q. apply andb_prop in Q as [Q1 Q2].
      apply DI in Q1. apply DI in Q2. rewrite Q1, Q2 in D. discriminate. }
    assert (S0 : sub m 0 13 = a) by (unfold sub, m; cbn [skipn]; now apply firstn_app_exact).
    split.
    + unfold m. apply bytes_ok_app. split; [apply w_ident_ok; now apply bytes_ok_sub|].
      rewrite !bytes_ok_cons. repeat split; try apply R13; try apply R14; try apply R15; constructor.
    + unfold number_fits, number_len. rewrite D', S0. apply Nat.leb_le. apply w_ident_fits. now apply bytes_ok_sub.
Qed.

Lemma ident_again d v : bytes_ok d -> (143 <= length d)%nat -> w_at ident_fields d 0 = Ok v ->
  length v = 143%nat /\ bytes_ok v /\ ident_fits v.
Proof.
  intros H L E. pose proof (ident_w_length d v H L E) as LV. split; auto.
  unfold ident_fields in E. cbn [w_at f_nation f_number f_string f_fun f_id f_date f_len f_w Nat.add bind] in E.
  destruct (nation_knownb _); [|discriminate]. cbn [bind] in E. apply Ok_inj in E.
  destruct (number_again (sub d 1 16)) as (L1 & B1 & F1); [now apply bytes_ok_sub|apply sub_length; lia|].
  split.
  - subst v.
    assert (WS : forall i, (i + 36 <= length d)%nat -> bytes_ok (w_string (sub d i 36))).
    { intros i I. unfold w_string. apply bytes_ok_cons. split; [apply norm_page_range|]. apply bytes_ok_skipn. now apply bytes_ok_sub. }
    destruct (good_date (sub d 137 4)) as [_ GD]; [apply bytes_ok_sub; auto|apply sub_length; simpl; lia|reflexivity|].
    destruct (GD _ eq_refl) as (_ & BD & _).
    repeat (apply bytes_ok_app; split); auto using bytes_ok_sub, bytes_ok_skipn; try (apply WS; lia); try constructor.
  - unfold ident_fits. rewrite <- E. rewrite <- F1. f_equal. unfold sub at 1.
    assert (L0 : length (sub d 0 1) = 1%nat) by (apply sub_length; lia).
    rewrite P_Utf8.skipn_app_exact by auto. now apply firstn_app_exact.
Qed.

(** ** Every file *)

(** What is written for the file [d] of a slot. *)
Definition slot_V (s : slot) (d : bytes) : res bytes :=
  match s with
  | S_events | S2_events | S_faults | S2_faults => events_out d
  | S2_units => units_out d
  | _ => slot_W s d
  end.

Lemma slot_writes cm s d x : bytes_ok d -> unmarshal_content cm s d = Ok x ->
  slot_A s d = true /\ append_content s x = slot_V s d.
Proof.
  intros H U. pose proof (slot_codec cm s d H) as C. rewrite U in C. destruct C as (A & _ & C). split; [exact A|].
  destruct s; try exact (proj1 (C I)); cbn [unmarshal_content append_content slot_V slot_W] in *;
    try (now apply (events_writes cm)); try (now apply units_writes);
    (apply (ident_writes cm); auto; apply Nat.leb_le; exact A).
Qed.

Lemma slot_written s d v : bytes_ok d -> slot_A s d = true -> slot_V s d = Ok v ->
  bytes_ok v /\ (length v <= length d)%nat.
Proof.
  intros H A E.
  assert (G : (forall e, slot_P s e) -> slot_V s d = slot_W s d -> bytes_ok v /\ (length v <= length d)%nat).
  { intros P V. pose proof (slot_codec (fun _ b => b) s d H) as C.
    destruct (unmarshal_content (fun _ b => b) s d); [|congruence|contradiction].
    destruct C as (_ & _ & C). destruct (C (P d)) as [_ W]. rewrite V in E. destruct (W v E) as (B & L & _). auto. }
  destruct s; try (apply G; [intros e; exact I|reflexivity]); clear G; cbn [slot_V slot_A slot_W] in *;
    try (destruct (events_out_spec d v H A E) as (L & B & _); split; auto; pose proof (Nat.mul_div_le (length d) 24 ltac:(lia)); lia);
    try (apply Nat.leb_le in A; destruct (ident_again d v H A E) as (L & B & _); split; auto; lia).
  apply andb_true_iff in A as [A W]. apply Nat.leb_le in A.
  destruct (units_out_spec d H A W) as (v' & E' & L & B & _). rewrite E in E'. apply Ok_inj in E'. subst v'. split; auto. lia.
Qed.

Lemma V_writable s d : bytes_ok d -> slot_A s d = true -> (is_ok (slot_V s d) = true <-> writable s d).
Proof.
  intros H A.
  assert (G : slot_V s d = slot_W s d -> (is_ok (slot_V s d) = true <-> writable s d)).
  { intros ->. now apply slot_writable. }
  assert (EV : is_ok (events_out d) = true <-> Forall (fun r => be (sub r 1 4) = 0 \/ nation_known (nth 9 r 0)) (chunks 24 d)).
  { unfold events_out. rewrite is_ok_concat, chunks_nth by (lia || apply fits_24). rewrite !Forall_forall.
    assert (K : forall i, is_ok (event_out (rec24 d i) (shown_in_the_end 24 d i)) = true <->
      be (sub (rec24 d i) 1 4) = 0 \/ nation_known (nth 9 (rec24 d i) 0)).
    { intros i. unfold event_out. rewrite <- nation_knownb_iff. destruct (Z.eqb_spec (be (sub (rec24 d i) 1 4)) 0); [split; auto|].
      destruct (nation_knownb (nth 9 (rec24 d i) 0)); cbn [is_ok]; split; auto; intros [?|?]; auto; contradiction. }
    split.
    - intros Q r I. apply in_map_iff in I as (i & <- & I). apply K. apply Q; auto.
    - intros Q i I. apply K. apply Q. apply in_map_iff. exists i. auto. }
  destruct s; try (apply G; reflexivity); clear G; cbn [slot_V writable]; auto.
  cbn [slot_A] in A. apply andb_true_iff in A as [A W]. apply Nat.leb_le in A.
  destruct (units_out_spec d H A W) as (v' & -> & _). split; auto.
Qed.

(** The written file is read again, except for events and faults. *)
Lemma V_again s d v : bytes_ok d -> slot_A s d = true -> slot_V s d = Ok v ->
  ~ In s [S_events; S2_events; S_faults; S2_faults] -> slot_A s v = true /\ is_ok (slot_V s v) = true.
Proof.
  intros H A E N.
  assert (G : (forall e, slot_P s e) -> (forall e, slot_V s e = slot_W s e) -> slot_A s v = true /\ is_ok (slot_V s v) = true).
  { intros P V. pose proof (slot_codec (fun _ b => b) s d H) as C.
    destruct (unmarshal_content (fun _ b => b) s d); [|congruence|contradiction].
    destruct C as (_ & _ & C). destruct (C (P d)) as [_ W]. rewrite V in *. destruct (W v E) as (B & L & A' & W' & _).
    split; auto. now rewrite W'. }
  destruct s; try (apply G; [intros e; exact I|reflexivity]); clear G; try (exfalso; apply N; cbn; tauto);
    cbn [slot_V slot_A slot_W] in *.
  1,2: apply Nat.leb_le in A; destruct (ident_again d v H A E) as (L & B & F1);
    (split; [apply Nat.leb_le; lia|]);
    unfold ident_fields in E |- *; cbn [w_at f_nation f_number f_string f_fun f_id f_date f_len f_w Nat.add bind] in E |- *;
    destruct (nation_knownb (nth 0 (sub d 0 1) 0)) eqn:K; [|discriminate]; cbn [bind] in E; apply Ok_inj in E;
    replace (nth 0 (sub v 0 1) 0) with (nth 0 (sub d 0 1) 0);
      [rewrite K; reflexivity|]; rewrite !nth_sub by lia; rewrite <- E, !Nat.add_0_r; rewrite app_nth1 by (rewrite sub_length; lia);
      rewrite nth_sub by lia; reflexivity.
  apply andb_true_iff in A as [A W]. apply Nat.leb_le in A.
  destruct (units_out_spec d H A W) as (v' & E' & L & B & _). rewrite E in E'. apply Ok_inj in E'. subst v'.
  rewrite (units_again d v H A W E). split; [|reflexivity]. apply andb_true_iff. split; [apply Nat.leb_le; lia|].
  unfold file_whole in *. now rewrite L.
Qed.

(** The second writing is final. *)
Lemma V_two_cycles s d1 d2 d3 : bytes_ok d1 -> slot_A s d1 = true -> slot_V s d1 = Ok d2 -> slot_A s d2 = true -> slot_V s d2 = Ok d3 ->
  slot_A s d3 = true /\ slot_V s d3 = Ok d3.
Proof.
  intros H A E A2 E2.
  assert (G : slot_P s d2 -> bytes_ok d2 -> (forall e, slot_V s e = slot_W s e) -> slot_A s d3 = true /\ slot_V s d3 = Ok d3).
  { intros P B V. pose proof (slot_codec (fun _ b => b) s d2 B) as C.
    destruct (unmarshal_content (fun _ b => b) s d2); [|congruence|contradiction].
    destruct C as (_ & _ & C). destruct (C P) as [_ W]. rewrite V in *. destruct (W d3 E2) as (B' & L & A' & W' & _). auto. }
  pose proof (slot_written s d1 d2 H A E) as [B2 L2].
  destruct s; try (apply G; [exact I|exact B2|reflexivity]); cbn [slot_V slot_A slot_W] in *;
    try (clear G; now apply (events_two_cycles d1 d2 d3));
    try (apply G; auto; apply Nat.leb_le in A; now destruct (ident_again d1 d2 H A E) as (_ & _ & F1)).
  clear G. apply andb_true_iff in A as [A W]. apply Nat.leb_le in A.
  assert (E3 : d3 = d2) by (rewrite (units_again d1 d2 H A W E) in E2; now apply Ok_inj in E2). subst d3. auto.
Qed.

(** Files of [slot_P] are final at once. *)
Lemma V_plain s d v : bytes_ok d -> slot_A s d = true -> slot_P s d -> slot_V s d = Ok v ->
  slot_A s v = true /\ slot_V s v = Ok v.
Proof.
  intros H A P E. pose proof (slot_codec (fun _ b => b) s d H) as C.
  destruct (unmarshal_content (fun _ b => b) s d) as [x| |] eqn:U; [|congruence|contradiction].
  destruct (slot_writes _ _ _ _ H U) as [_ V]. destruct C as (_ & _ & C). destruct (C P) as [CE CW].
  rewrite <- V, CE in E. destruct (CW v E) as (B & _ & A' & W' & P'). split; auto.
  pose proof (slot_codec (fun _ b => b) s v B) as D.
  destruct (unmarshal_content (fun _ b => b) s v) as [y| |] eqn:Y; [|congruence|contradiction].
  destruct (slot_writes _ _ _ _ B Y) as [_ VY]. destruct D as (_ & _ & D). destruct (D P') as [DE _].
  now rewrite <- VY, DE.
Qed.

(** *** Events and faults, in terms of the bytes of the file *)

(** Every unused record shows, in the end, an unused record or one with a known type
    and a known nation. *)
Definition shows_records (d : bytes) : Prop :=
  forall i j, last_at_place 24 170 d i j -> be (sub d (i * 24 + 1) 4) = 0 ->
  let r := map (shown_byte d i j) (seq 0 24) in
  be (sub r 1 4) = 0 \/ a_code event_fault_type_table (nth 0 r 0) /\ a_code nation_numeric_table (nth 9 r 0).

Lemma events_cycle d v : bytes_ok d -> file_acc 0 f_event d = true -> events_out d = Ok v ->
  (file_acc 0 f_event v = true /\ is_ok (events_out v) = true <-> shows_records d).
Proof.
  intros H A E. destruct (events_again d v H A E) as [R W].
  assert (K : (file_acc 0 f_event v = true /\ is_ok (events_out v) = true) <->
    forall i, (i < length d / 24)%nat -> unused (rec24 d i) = true ->
      unused (shown_in_the_end 24 d i) = true \/
      is_ok (unmarshal_enum event_fault_type_table (nth 0 (shown_in_the_end 24 d i) 0)) = true /\
      nation_knownb (nth 9 (shown_in_the_end 24 d i) 0) = true).
  { assert (AC : forall i, f_acc f_event (shown_in_the_end 24 d i) =
      unused (shown_in_the_end 24 d i) || is_ok (unmarshal_enum event_fault_type_table (nth 0 (shown_in_the_end 24 d i) 0))).
    { intros i. apply event_acc, shown_length. }
    split.
    - intros [X Y] i I U. pose proof (proj1 (W X) Y i I U) as Y1. pose proof (proj1 R X i I U) as X1.
      rewrite AC in X1. apply orb_true_iff in X1.
      destruct X1 as [X1|X1]; [left; exact X1|]. destruct Y1 as [Y1|Y1]; [left; exact Y1|right; split; [exact X1|exact Y1]].
    - intros Q. assert (X : file_acc 0 f_event v = true).
      { apply R. intros i I U. rewrite AC. apply orb_true_iff. destruct (Q i I U) as [Q1|[Q1 _]]; [left; exact Q1|right; exact Q1]. }
      split; [exact X|]. apply (W X). intros i I U. destruct (Q i I U) as [Q1|[_ Q1]]; [left; exact Q1|right; exact Q1]. }
  rewrite K. clear K R W E v. unfold shows_records.
  assert (US : forall i, (i < length d / 24)%nat -> (unused (rec24 d i) = true <-> be (sub d (i * 24 + 1) 4) = 0)).
  { intros i I. pose proof (rec_inside 24 d i ltac:(lia) I). unfold unused, rec24. rewrite sub_sub by lia. apply Z.eqb_eq. }
  split.
  - intros Q i j P Z0. pose proof (shown_bytes d i j P) as SB. cbv zeta. rewrite <- SB.
    destruct P as (I & _). specialize (Q i I (proj2 (US i I) Z0)).
    rewrite a_code_ok by reflexivity. rewrite <- nation_a_code, <- nation_knownb_iff. unfold unused in Q. rewrite Z.eqb_eq in Q. exact Q.
  - intros Q i I U. destruct (last_at_place_24 d i I) as [j P]. specialize (Q i j P (proj1 (US i I) U)).
    cbv zeta in Q. rewrite <- (shown_bytes d i j P) in Q.
    rewrite a_code_ok in Q by reflexivity. rewrite <- nation_a_code, <- nation_knownb_iff in Q. unfold unused. rewrite Z.eqb_eq. exact Q.
Qed.

(** In particular if no incomplete record is left at the end. *)
Lemma whole_shows_records d v : bytes_ok d -> file_acc 0 f_event d = true -> events_out d = Ok v ->
  (length d mod 24 = 0)%nat -> shows_records d.
Proof.
  intros H A E M i j P Z0. cbv zeta. pose proof (shown_bytes d i j P) as SB. rewrite <- SB. destruct P as (I & J & SP & LP).
  rewrite (shown_whole 24 d i j); rewrite ?places_24; auto; try lia; try apply fits_24. fold (rec24 d j).
  rewrite events_acc in A. specialize (A j J). pose proof (rec_inside 24 d j ltac:(lia) J).
  assert (L : length (rec24 d j) = 24%nat) by (unfold rec24; apply sub_length; lia).
  rewrite event_acc in A by auto. rewrite a_code_ok by reflexivity. rewrite <- nation_a_code, <- nation_knownb_iff.
  assert (O : is_ok (event_out (rec24 d j) (shown_in_the_end 24 d j)) = true).
  { assert (O : is_ok (events_out d) = true) by (now rewrite E). unfold events_out in O. rewrite is_ok_concat, Forall_forall in O.
    apply (O j). apply in_seq. lia. }
  unfold event_out in O. unfold unused in A. destruct (Z.eqb_spec (be (sub (rec24 d j) 1 4)) 0) as [Z1|Z1]; [left; exact Z1|]. right.
  destruct (nation_knownb (nth 9 (rec24 d j) 0)); [split; [exact A|reflexivity]|discriminate].
Qed.
