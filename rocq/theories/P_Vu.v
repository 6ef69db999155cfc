(** The shape of vehicle unit downloads. *)

From Verif Require Import Base Enums Chunks DDScalar DDString DDRecord P_String RawTypes P_Records P_RawCard Field P_Scanner Vu.

(** ** Transfers as sequences of counted parts *)

(** A part: [st_skip] bytes, a header of [st_head] bytes and as many bytes as the
    header says. *)
Record stage := St { st_skip : nat; st_head : nat; st_body : bytes -> Z }.

(** A counter of [w] bytes and records of [n]. *)
Definition counted (skip w : nat) (n : Z) : stage := St skip w (fun h => be h * n).

(** A record array: type, record size, number of records, records. *)
Definition array : stage := St 0 5 (fun h => be (sub h 1 2) * be (sub h 3 2)).

(** The parts of the values of each transfer (by TREP) and the length of what
    follows them; card downloads (TREP 06) have another form. *)
Definition layouts : list (Z * list stage * nat) :=
  [(0x00, [], 2%nat);
   (0x01, [counted 491 1 98; counted 0 1 31], 128%nat);
   (0x02, [counted 7 2 129; counted 0 2 2; counted 0 1 28; counted 0 2 5], 128%nat);
   (0x03, [counted 0 1 82; counted 0 1 83; counted 9 1 31; counted 0 1 98], 128%nat);
   (0x04, [counted 0 2 64], 128%nat);
   (0x05, [counted 136 1 167], 128%nat);
   (0x21, repeat array 11, 0%nat); (0x22, repeat array 8, 0%nat); (0x23, repeat array 6, 0%nat);
   (0x24, repeat array 2, 0%nat); (0x25, repeat array 4, 0%nat);
   (0x31, repeat array 11, 0%nat); (0x32, repeat array 10, 0%nat); (0x33, repeat array 7, 0%nat);
   (0x35, repeat array 7, 0%nat)].

(** The value consists of exactly these parts and [tail] more bytes. *)
Inductive fills : list stage -> nat -> bytes -> Prop :=
  | fills_nil : forall tail e, length e = tail -> fills [] tail e
  | fills_cons : forall st l tail a h b e, length a = st_skip st -> length h = st_head st ->
      Z.of_nat (length b) = st_body st h -> fills l tail e -> fills (st :: l) tail (a ++ h ++ b ++ e).

(** The bytes end before the header of one of the parts can be looked for. *)
Inductive overrun : list stage -> bytes -> Prop :=
  | over_skip : forall st l d, (length d < st_skip st)%nat -> overrun (st :: l) d
  | over_body : forall st st' l a h d, length a = st_skip st -> length h = st_head st ->
      Z.of_nat (length d) < st_body st h -> overrun (st :: st' :: l) (a ++ h ++ d)
  | over_next : forall st l a h b d, length a = st_skip st -> length h = st_head st ->
      Z.of_nat (length b) = st_body st h -> overrun l d -> overrun (st :: l) (a ++ h ++ b ++ d).

Definition stage_ok (st : stage) : Prop := forall h, bytes_ok h -> 0 <= st_body st h.

Lemma be_nonneg d : bytes_ok d -> 0 <= be d.
Proof. intros H. pose proof (be_range d H). lia. Qed.

Lemma counted_ok s w n : 0 <= n -> stage_ok (counted s w n).
Proof. intros N h H. cbn. pose proof (be_nonneg h H). nia. Qed.

Lemma array_ok : stage_ok array.
Proof.
  intros h H. cbn [array st_body]. pose proof (be_nonneg (sub h 1 2) (bytes_ok_sub h 1 2 H)). pose proof (be_nonneg (sub h 3 2) (bytes_ok_sub h 3 2 H)). nia.
Qed.

Lemma layouts_ok p : In p layouts -> Forall stage_ok (snd (fst p)).
Proof.
  intros I. repeat destruct I as [<-|I]; try destruct I; cbn [fst snd repeat];
    repeat (apply Forall_cons; [try apply array_ok; apply counted_ok; lia|]); apply Forall_nil.
Qed.

(** ** The size computation *)

Fixpoint scan (l : list stage) (tail : nat) (d : bytes) (o : Z) : res Z :=
  match l with
  | [] => Ok (o + Z.of_nat tail)
  | st :: l' =>
      let* t := from d (o + Z.of_nat (st_skip st)) in
      let* _ := guard (negb (length t <? st_head st)%nat) in
      scan l' tail d (o + Z.of_nat (st_skip st) + Z.of_nat (st_head st) + st_body st (sub t 0 (st_head st)))
  end.

Lemma scan_arrays n : forall d o, scan (repeat array n) 0 d o = skip_record_arrays n d o.
Proof.
  induction n as [|n IH]; intros d o; cbn [repeat scan skip_record_arrays].
  - f_equal. lia.
  - unfold size_of_record_array. cbn [st_skip st_head st_body array]. rewrite Z.add_0_r.
    destruct (from d o) as [t|e|]; cbn [bind]; auto. destruct (guard _) eqn:G; cbn [bind]; auto.
    rewrite IH. f_equal. apply guard_ok in G. apply negb_true_iff, Nat.ltb_ge in G.
    rewrite !sub_sub by lia. cbn [Nat.add]. lia.
Qed.

Definition trep_of (t : transfer_type) : Z :=
  match find (fun p => transfer_type_eqb (fst (fst p)) t) transfer_types with Some (_, r, _) => r | None => 0 end.

Lemma number_then {X} w d o (k : Z -> res X) : (let* n := number_at w d o in k n) =
  (let* t := from d o in let* _ := guard (negb (length t <? w)%nat) in k (be (sub t 0 w))).
Proof. unfold number_at. destruct (from d o); cbn [bind]; auto. destruct (guard _); reflexivity. Qed.

Lemma scan_counted s w n l tail d o : scan (counted s w n :: l) tail d o =
  (let* c := number_at w d (o + Z.of_nat s) in scan l tail d (o + Z.of_nat s + Z.of_nat w + c * n)).
Proof. rewrite number_then. reflexivity. Qed.

Lemma number_cong {X} w d o o' (k k' : Z -> res X) : o = o' -> (forall c, k c = k' c) ->
  (let* n := number_at w d o in k n) = (let* n := number_at w d o' in k' n).
Proof. intros -> H. destruct (number_at w d o'); cbn [bind]; auto. Qed.

Lemma app_inj_length {A} (a b c d : list A) : length a = length b -> a ++ c = b ++ d -> a = b /\ c = d.
Proof.
  revert b. induction a as [|x a IH]; intros [|y b] L E; try discriminate; auto. cbn in *. injection E as -> E.
  injection L as L. destruct (IH _ L E) as [-> ->]. auto.
Qed.

Lemma bind_ext {A B} (r : res A) (f g : A -> res B) : (forall a, f a = g a) -> bind r f = bind r g.
Proof. intros H. destruct r; cbn [bind]; auto. Qed.

Definition layout_of (t : transfer_type) : option (list stage * nat) :=
  match t with
  | DOWNLOAD_INTERFACE_VERSION => Some ([], 2%nat)
  | OVERVIEW_GEN1 => Some ([counted 491 1 98; counted 0 1 31], 128%nat)
  | ACTIVITIES_GEN1 => Some ([counted 7 2 129; counted 0 2 2; counted 0 1 28; counted 0 2 5], 128%nat)
  | EVENTS_AND_FAULTS_GEN1 => Some ([counted 0 1 82; counted 0 1 83; counted 9 1 31; counted 0 1 98], 128%nat)
  | DETAILED_SPEED_GEN1 => Some ([counted 0 2 64], 128%nat)
  | TECHNICAL_DATA_GEN1 => Some ([counted 136 1 167], 128%nat)
  | CARD_DOWNLOAD => None
  | _ => Some (repeat array (arrays_sized t), 0%nat)
  end.

Lemma layout_in t l tail : layout_of t = Some (l, tail) <-> In (trep_of t, l, tail) layouts.
Proof.
  split.
  - intros E. destruct t; try discriminate E; injection E as <- <-; unfold layouts;
      repeat (try (left; reflexivity); right).
  - intros I. unfold layouts in I.
    destruct t;
    repeat (destruct I as [I|I];
      [first [pose proof (f_equal (fun p => fst (fst p)) I) as K; vm_compute in K; discriminate K
             |injection I as <- <-; reflexivity]|]); destruct I.
Qed.

Lemma scan_size t d l tail : t <> DOWNLOAD_INTERFACE_VERSION -> layout_of t = Some (l, tail) ->
  size_of_transfer_value t d = scan l tail d 0.
Proof.
  intros M E. destruct t; try (now destruct M); try discriminate E; injection E as <- <-; cbn [size_of_transfer_value];
    try (match goal with |- skip_record_arrays (arrays_sized ?u) _ _ = _ => exact (eq_sym (scan_arrays (arrays_sized u) d 0)) end).
  all: unfold size_overview_gen1, size_activities_gen1, size_events_gen1, size_speed_gen1, size_technical_gen1;
    repeat (rewrite scan_counted; apply number_cong; [lia|intros]); cbn [scan]; f_equal; lia.
Qed.

(** ** What it computes *)

Lemma from_ok d o : 0 <= o <= len d -> from d o = Ok (skipn (Z.to_nat o) d).
Proof. intros H. unfold from. destruct (Z.leb_spec o (len d)); auto. lia. Qed.

Lemma from_panic d o : from d o = Panic <-> len d < o.
Proof. unfold from. destruct (Z.leb_spec o (len d)); split; auto; try discriminate; lia. Qed.

Lemma len_app a b : len (a ++ b) = len a + len b.
Proof. unfold len. rewrite app_length. lia. Qed.

Lemma len_nonneg d : 0 <= len d.
Proof. unfold len. lia. Qed.

Lemma skipn_len (a b : bytes) : skipn (Z.to_nat (len a)) (a ++ b) = b.
Proof. unfold len. rewrite Nat2Z.id, skipn_app, skipn_all, Nat.sub_diag. reflexivity. Qed.

Lemma firstn_len (a b : bytes) : firstn (Z.to_nat (len a)) (a ++ b) = a.
Proof. unfold len. rewrite Nat2Z.id, firstn_app, firstn_all, Nat.sub_diag. apply app_nil_r. Qed.

Lemma from_len a b : from (a ++ b) (len a) = Ok b.
Proof. rewrite from_ok, skipn_len; auto. rewrite len_app. pose proof (len_nonneg a). pose proof (len_nonneg b). lia. Qed.

(** One part at the front of the rest [e] behind [p]. *)
Lemma scan_step st l tail p a h e : length a = st_skip st -> length h = st_head st ->
  scan (st :: l) tail (p ++ a ++ h ++ e) (len p) =
  scan l tail (p ++ a ++ h ++ e) (len (p ++ a ++ h) + st_body st h).
Proof.
  intros A H. cbn [scan].
  replace (len p + Z.of_nat (st_skip st)) with (len (p ++ a)) by (rewrite len_app; unfold len; lia).
  replace (p ++ a ++ h ++ e) with ((p ++ a) ++ h ++ e) at 1 by now rewrite <- !app_assoc.
  rewrite from_len. cbn [bind].
  replace (length (h ++ e) <? st_head st)%nat with false by (symmetry; apply Nat.ltb_ge; rewrite app_length; lia).
  cbn [negb guard bind].
  replace (sub (h ++ e) 0 (st_head st)) with h by (unfold sub; cbn [skipn]; rewrite <- H; rewrite firstn_app, firstn_all, Nat.sub_diag, app_nil_r; reflexivity).
  f_equal. rewrite !len_app. unfold len. lia.
Qed.

Lemma scan_fills l tail v : fills l tail v -> forall p e, scan l tail (p ++ v ++ e) (len p) = Ok (len (p ++ v)).
Proof.
  induction 1 as [tail v L|st l tail a h b v A H B F IH]; intros p e.
  - cbn [scan]. rewrite len_app. unfold len. f_equal. lia.
  - replace (p ++ (a ++ h ++ b ++ v) ++ e) with (p ++ a ++ h ++ (b ++ v ++ e)) by now rewrite <- !app_assoc.
    rewrite scan_step by auto.
    replace (len (p ++ a ++ h) + st_body st h) with (len (p ++ a ++ h ++ b)) by (rewrite !len_app; unfold len; lia).
    replace (p ++ a ++ h ++ b ++ v ++ e) with ((p ++ a ++ h ++ b) ++ v ++ e) by now rewrite <- !app_assoc.
    rewrite IH. now rewrite <- !app_assoc.
Qed.

Lemma scan_overrun l tail d : overrun l d -> Forall stage_ok l -> bytes_ok d -> forall p, scan l tail (p ++ d) (len p) = Panic.
Proof.
  induction 1 as [st l d L|st st' l a h d A H L|st l a h b d A H L O IH]; intros G B p.
  - cbn [scan]. assert (E : from (p ++ d) (len p + Z.of_nat (st_skip st)) = Panic) by (apply from_panic; rewrite len_app; unfold len; lia).
    now rewrite E.
  - rewrite scan_step by auto. cbn [scan].
    assert (E : from (p ++ a ++ h ++ d) (len (p ++ a ++ h) + st_body st h + Z.of_nat (st_skip st')) = Panic)
      by (apply from_panic; rewrite !len_app; unfold len; lia).
    now rewrite E.
  - rewrite scan_step by auto. inversion G; subst.
    replace (len (p ++ a ++ h) + st_body st h) with (len (p ++ a ++ h ++ b)) by (rewrite !len_app; unfold len; lia).
    replace (p ++ a ++ h ++ b ++ d) with ((p ++ a ++ h ++ b) ++ d) by now rewrite <- !app_assoc.
    apply IH; auto. now apply bytes_ok_app in B as [_ B]; apply bytes_ok_app in B as [_ B]; apply bytes_ok_app in B as [_ B].
Qed.

Lemma split_at (d : bytes) n : (n <= length d)%nat -> exists a b, d = a ++ b /\ length a = n.
Proof. intros L. exists (firstn n d), (skipn n d). split; [now rewrite firstn_skipn|]. rewrite firstn_length. lia. Qed.

(** The three outcomes of the computation on [d] behind [p]. *)
Lemma scan_cases l tail : Forall stage_ok l -> forall p d, bytes_ok d ->
  (exists v e, d = v ++ e /\ fills l tail v) \/
  overrun l d \/
  (scan l tail (p ++ d) (len p) = fail \/ exists n, scan l tail (p ++ d) (len p) = Ok n /\ len (p ++ d) < n).
Proof.
  induction 1 as [|st l G GL IH]; intros p d B.
  - destruct (le_lt_dec tail (length d)) as [L|L].
    + left. destruct (split_at d tail L) as (v & e & -> & E). exists v, e. split; auto. now constructor.
    + right. right. right. cbn [scan]. eexists. split; [reflexivity|]. rewrite len_app. unfold len. lia.
  - destruct (le_lt_dec (st_skip st) (length d)) as [L|L]; [|right; left; now constructor].
    destruct (split_at d _ L) as (a & d1 & -> & A). apply bytes_ok_app in B as [Ba B].
    destruct (le_lt_dec (st_head st) (length d1)) as [L1|L1].
    2: { right. right. left. cbn [scan].
      replace (len p + Z.of_nat (st_skip st)) with (len (p ++ a)) by (rewrite len_app; unfold len; lia).
      replace (p ++ a ++ d1) with ((p ++ a) ++ d1) by now rewrite <- !app_assoc.
      rewrite from_len. cbn [bind]. apply Nat.ltb_lt in L1. now rewrite L1. }
    destruct (split_at d1 _ L1) as (h & d2 & -> & H). apply bytes_ok_app in B as [Bh B]. pose proof (G h Bh) as P.
    destruct (Z_le_gt_dec (st_body st h) (Z.of_nat (length d2))) as [L2|L2].
    + destruct (split_at d2 (Z.to_nat (st_body st h))) as (b & d3 & -> & Bb); [lia|]. apply bytes_ok_app in B as [Bbb B].
      assert (E : scan (st :: l) tail (p ++ a ++ h ++ b ++ d3) (len p) = scan l tail ((p ++ a ++ h ++ b) ++ d3) (len (p ++ a ++ h ++ b))).
      { rewrite scan_step by auto. f_equal; [now rewrite <- !app_assoc|rewrite !len_app; unfold len; lia]. }
      destruct (IH (p ++ a ++ h ++ b) d3 B) as [(v & e & -> & F)|[O|R]].
      * left. exists (a ++ h ++ b ++ v), e. split; [now rewrite <- !app_assoc|]. constructor; auto. lia.
      * right. left. apply over_next; auto. lia.
      * right. right. rewrite E. replace (len (p ++ a ++ h ++ b ++ d3)) with (len ((p ++ a ++ h ++ b) ++ d3)); [exact R|].
        rewrite !len_app. lia.
    + destruct l as [|st' l].
      * right. right. right. rewrite scan_step by auto. cbn [scan]. eexists. split; [reflexivity|]. rewrite !len_app. unfold len. lia.
      * right. left. apply over_body; auto. lia.
Qed.

(** Transfers cannot be confused with longer or shorter ones. *)
Lemma fills_unique l tail v : fills l tail v -> forall w e f, fills l tail w -> v ++ e = w ++ f -> v = w /\ e = f.
Proof.
  induction 1 as [tail v L|st l tail a h b v A H B F IH]; intros w e f W E.
  - inversion W as [? ? L'|]; subst. now apply app_inj_length.
  - inversion W as [|? ? ? a' h' b' w' A' H' B' F']; subst. rewrite <- !app_assoc in E.
    apply app_inj_length in E as [-> E]; [|congruence]. apply app_inj_length in E as [-> E]; [|congruence].
    apply app_inj_length in E as [-> E]; [|lia]. destruct (IH _ _ _ F' E) as [-> ->]. auto.
Qed.

(** ** Splitting *)

Lemma find_type_iff a b t : byte_ok a -> byte_ok b ->
  (find_transfer_type (be [a; b]) = Some t <-> a = 0x76 /\ b = trep_of t).
Proof.
  intros A B. replace (be [a; b]) with (a * 256 + b) by (unfold be; cbn [be_acc]; lia). unfold byte_ok in *. split.
  - unfold find_transfer_type. destruct (find _ transfer_types) as [[[u r] g]|] eqn:E; [|discriminate]. intros Q. injection Q as ->.
    apply find_some in E as [I E]. apply Z.eqb_eq in E.
    assert (T : forallb (fun p => match p with (u, r, g) => (u16 (Z.lor 0x7600 (Z.land r 255)) =? 0x7600 + r) && (r =? trep_of u) && (0 <=? r) && (r <? 256) end) transfer_types = true) by reflexivity.
    rewrite forallb_forall in T. specialize (T _ I). cbv beta iota in T. rewrite !andb_true_iff in T. destruct T as (((T1 & T2) & T3) & T4).
    apply Z.eqb_eq in T1, T2. lia.
  - intros [-> ->]. destruct t; reflexivity.
Qed.

Lemma trep_byte t : byte_ok (trep_of t).
Proof. destruct t; unfold byte_ok; cbn; lia. Qed.

Lemma trep_inj t u : trep_of t = trep_of u -> t = u.
Proof. destruct t, u; intros E; try reflexivity; discriminate E. Qed.

(** Whole records of a card download. *)
Definition card_records (v : bytes) : Prop := exists ts, Forall tlv_ok ts /\ v = encs ts.

Lemma size_card_encs ts : Forall tlv_ok ts -> forall e n, (length e < 5)%nat -> (length (encs ts ++ e) <= n)%nat ->
  size_card_download n (encs ts ++ e) = Ok (len (encs ts)).
Proof.
  induction 1 as [|t ts T F IH]; intros e n L N.
  - cbn [encs map concat List.app] in *. change (encs []) with (@nil Z) in *. cbn [List.app] in *.
    destruct n; cbn [size_card_download]; auto. apply Nat.ltb_lt in L. rewrite L. reflexivity.
  - change (encs (t :: ts)) with (enc t ++ encs ts) in *. rewrite <- app_assoc in *.
    destruct n as [|n]; [rewrite app_length, enc_length in N; lia|]. cbn [size_card_download].
    rewrite enc_len_field by auto. unfold t_len. rewrite Nat2Z.id.
    replace (length (enc t ++ encs ts ++ e) <? 5)%nat with false by (symmetry; apply Nat.ltb_ge; rewrite app_length, enc_length; lia).
    rewrite <- enc_length. 
    replace (length (enc t ++ encs ts ++ e) <? length (enc t))%nat with false by (symmetry; apply Nat.ltb_ge; rewrite app_length; lia).
    cbn [negb guard bind]. rewrite skipn_app, skipn_all, Nat.sub_diag. cbn [List.app skipn].
    rewrite IH; auto; [|rewrite app_length, enc_length in N; lia]. cbn [bind]. rewrite len_app. reflexivity.
Qed.

Lemma enc_of_bytes d : bytes_ok d -> (5 <= length d)%nat -> (5 + Z.to_nat (be (sub d 3 2)) <= length d)%nat ->
  exists t e, tlv_ok t /\ d = enc t ++ e.
Proof.
  intros B L5 L. do 5 (destruct d as [|? d]; [cbn in L5; lia|]). rename z into f0, z0 into f1, z1 into ap, z2 into l0, z3 into l1.
  unfold sub in L. cbn [skipn firstn length] in L.
  repeat (apply bytes_ok_cons in B as [? B]). unfold byte_ok in *.
  replace (be [l0; l1]) with (l0 * 256 + l1) in L by (unfold be; cbn [be_acc]; lia).
  destruct (split_at d (Z.to_nat (l0 * 256 + l1))) as (v & e & -> & Lv); [lia|]. apply bytes_ok_app in B as [Bv Be].
  exists (mkTlv (f0 * 256 + f1) ap v), e.
  assert (TL : t_len (mkTlv (f0 * 256 + f1) ap v) = l0 * 256 + l1) by (unfold t_len; cbn [t_val]; lia).
  split.
  - unfold tlv_ok. rewrite TL. cbn [t_fid t_app t_val]. unfold byte_ok. repeat split; auto; lia.
  - unfold enc. rewrite TL. cbn [t_fid t_app t_val].
    rewrite !Z.div_add_l, !Z.div_small, !Z.add_0_r by lia.
    replace ((f0 * 256 + f1) mod 256) with f1 by (rewrite Z.add_comm, Z.mod_add, Z.mod_small; lia).
    replace ((l0 * 256 + l1) mod 256) with l1 by (rewrite Z.add_comm, Z.mod_add, Z.mod_small; lia).
    reflexivity.
Qed.

Lemma size_card_cases n : forall d, (length d <= n)%nat -> bytes_ok d ->
  (exists v e, d = v ++ e /\ card_records v /\ (length e < 5)%nat) \/ exists x, size_card_download n d = Err x.
Proof.
  induction n as [|n IH]; intros d L B.
  - left. exists [], d. split; auto. split; [exists []; split; [constructor|reflexivity]|lia].
  - destruct (le_lt_dec 5 (length d)) as [L5|L5].
    2: { left. exists [], d. split; auto. split; [exists []; split; [constructor|reflexivity]|lia]. }
    destruct (le_lt_dec (5 + Z.to_nat (be (sub d 3 2))) (length d)) as [LL|LL].
    + destruct (enc_of_bytes d B L5 LL) as (t & e & T & ->). apply bytes_ok_app in B as [Bt Be].
      destruct (IH e) as [(v & r & -> & (ts & F & ->) & Lr)|[x E]]; auto.
      { rewrite app_length, enc_length in L. lia. }
      * left. exists (enc t ++ encs ts), r. split; [now rewrite app_assoc|]. split; auto. exists (t :: ts). split; auto.
      * right. exists x. cbn [size_card_download].
        replace (length (enc t ++ e) <? 5)%nat with false by (symmetry; apply Nat.ltb_ge; rewrite app_length, enc_length; lia).
        rewrite enc_len_field by auto. unfold t_len. rewrite Nat2Z.id, <- enc_length.
        replace (length (enc t ++ e) <? length (enc t))%nat with false by (symmetry; apply Nat.ltb_ge; rewrite app_length; lia).
        cbn [negb guard bind]. rewrite skipn_app, skipn_all, Nat.sub_diag. cbn [List.app skipn]. now rewrite E.
    + right. exists EOther. cbn [size_card_download]. replace (length d <? 5)%nat with false by (symmetry; now apply Nat.ltb_ge).
      apply Nat.ltb_lt in LL. now rewrite LL.
Qed.

(** The value [v] of a transfer of type [t] in front of [e]. *)
Definition value_of (t : transfer_type) (v e : bytes) : Prop :=
  match layout_of t with
  | Some (l, tail) => fills l tail v
  | None => card_records v /\ (length e < 5)%nat
  end.

Inductive splits : bytes -> list vu_record -> Prop :=
  | splits_nil : splits [] []
  | splits_cons : forall t v e rs, value_of t v e -> splits e rs ->
      splits (0x76 :: trep_of t :: v ++ e) (mkVR (0x7600 + trep_of t) t v :: rs).

Inductive crash : bytes -> Prop :=
  | crash_here : forall trep l tail d, In (trep, l, tail) layouts -> overrun l d -> crash (0x76 :: trep :: d)
  | crash_later : forall trep l tail v e, In (trep, l, tail) layouts -> fills l tail v -> crash e ->
      crash (0x76 :: trep :: v ++ e)
  | crash_card : forall v e, card_records v -> (length e < 5)%nat -> crash e -> crash (0x76 :: 0x06 :: v ++ e).

(** One round of the splitter. *)
Lemma split_head k t d : split_vu (S k) (0x76 :: trep_of t :: d) =
  (let* n := size_of_transfer_value t d in
   let* _ := guard (negb (len d <? n)) in
   let* rs := split_vu k (skipn (Z.to_nat n) d) in
   Ok (mkVR (0x7600 + trep_of t) t (firstn (Z.to_nat n) d) :: rs)).
Proof.
  cbn [split_vu length Nat.eqb Nat.ltb Nat.leb negb guard bind]. unfold sub. cbn [skipn firstn].
  assert (F : find_transfer_type (be [0x76; trep_of t]) = Some t).
  { apply find_type_iff; auto; [unfold byte_ok; lia|apply trep_byte]. }
  rewrite F. replace (be [0x76; trep_of t]) with (0x7600 + trep_of t) by (unfold be; cbn [be_acc]; lia). reflexivity.
Qed.

(** The interface version's size function also looks at the length. *)
Lemma size_then {X} t l tail d (k : Z -> res X) : layout_of t = Some (l, tail) ->
  (let* n := size_of_transfer_value t d in let* _ := guard (negb (len d <? n)) in k n) =
  (let* n := scan l tail d 0 in let* _ := guard (negb (len d <? n)) in k n).
Proof.
  intros E. destruct t; try (rewrite scan_size with (l := l) (tail := tail) by (discriminate || exact E); reflexivity).
  injection E as <- <-. cbn [size_of_transfer_value scan]. unfold size_interface_version.
  destruct (Nat.ltb_spec (length d) 2) as [L|L]; cbn [negb guard bind]; auto.
  destruct (Z.ltb_spec (len d) (0 + Z.of_nat 2)) as [M|M]; auto. unfold len in M. lia.
Qed.

Lemma size_value t v e : value_of t v e ->
  forall X (k : Z -> res X), (let* n := size_of_transfer_value t (v ++ e) in let* _ := guard (negb (len (v ++ e) <? n)) in k n) = k (len v).
Proof.
  unfold value_of. intros H X k.
  assert (G : (len (v ++ e) <? len v) = false) by (apply Z.ltb_ge; rewrite len_app; pose proof (len_nonneg e); lia).
  destruct (layout_of t) as [[l tail]|] eqn:E.
  - rewrite (size_then t l tail) by auto. pose proof (scan_fills l tail v H [] e) as S.
    change (len []) with 0 in S. cbn [List.app] in S. rewrite S. cbn [bind]. rewrite G. reflexivity.
  - destruct t; try discriminate. destruct H as [(ts & F & ->) L]. cbn [size_of_transfer_value].
    rewrite size_card_encs; auto. cbn [bind]. rewrite G. reflexivity.
Qed.

Lemma split_ok d rs : splits d rs -> forall n, (length d <= n)%nat -> split_vu n d = Ok rs.
Proof.
  induction 1 as [|t v e rs V S IH]; intros n L.
  - now destruct n.
  - destruct n as [|n]; [cbn in L; lia|]. rewrite split_head, size_value by auto.
    rewrite skipn_len, firstn_len. rewrite IH; [reflexivity|]. cbn [length] in L. rewrite app_length in L. lia.
Qed.

Lemma layouts_type trep l tail : In (trep, l, tail) layouts -> exists t, trep = trep_of t /\ layout_of t = Some (l, tail).
Proof.
  intros I. assert (T : exists t, trep = trep_of t).
  { unfold layouts in I. repeat (destruct I as [I|I]; [apply (f_equal (fun p => fst (fst p))) in I; cbn [fst] in I; subst trep|]); [..|destruct I].
    all: try (exists DOWNLOAD_INTERFACE_VERSION; reflexivity); try (exists OVERVIEW_GEN1; reflexivity); try (exists ACTIVITIES_GEN1; reflexivity);
      try (exists EVENTS_AND_FAULTS_GEN1; reflexivity); try (exists DETAILED_SPEED_GEN1; reflexivity); try (exists TECHNICAL_DATA_GEN1; reflexivity);
      try (exists OVERVIEW_GEN2_V1; reflexivity); try (exists ACTIVITIES_GEN2_V1; reflexivity); try (exists EVENTS_AND_FAULTS_GEN2_V1; reflexivity);
      try (exists DETAILED_SPEED_GEN2; reflexivity); try (exists TECHNICAL_DATA_GEN2_V1; reflexivity); try (exists OVERVIEW_GEN2_V2; reflexivity);
      try (exists ACTIVITIES_GEN2_V2; reflexivity); try (exists EVENTS_AND_FAULTS_GEN2_V2; reflexivity); try (exists TECHNICAL_DATA_GEN2_V2; reflexivity). }
  destruct T as [t ->]. exists t. split; auto. now apply layout_in.
Qed.

Lemma split_crash d : crash d -> bytes_ok d -> forall n, (length d <= n)%nat -> split_vu n d = Panic.
Proof.
  induction 1 as [trep l tail d I O|trep l tail v e I F C IH|v e R L5 C IH]; intros B n L.
  all: destruct n as [|n]; [cbn in L; lia|]; cbn [length] in L; rewrite ?app_length in L.
  - destruct (layouts_type trep l tail I) as (t & -> & E). rewrite split_head.
    rewrite (size_then t l tail) by auto. apply bytes_ok_cons in B as [_ B]. apply bytes_ok_cons in B as [_ B].
    pose proof (scan_overrun l tail d O (layouts_ok _ I) B []) as S. change (len []) with 0 in S. cbn [List.app] in S.
    now rewrite S.
  - destruct (layouts_type trep l tail I) as (t & -> & E). rewrite split_head.
    rewrite size_value by (unfold value_of; now rewrite E). rewrite skipn_len.
    apply bytes_ok_cons in B as [_ B]. apply bytes_ok_cons in B as [_ B]. apply bytes_ok_app in B as [_ B].
    rewrite IH by (auto; lia). reflexivity.
  - change 0x06 with (trep_of CARD_DOWNLOAD). rewrite split_head.
    rewrite size_value by (unfold value_of; cbn [layout_of]; auto). rewrite skipn_len.
    apply bytes_ok_cons in B as [_ B]. apply bytes_ok_cons in B as [_ B]. apply bytes_ok_app in B as [_ B].
    rewrite IH by (auto; lia). reflexivity.
Qed.

Lemma split_cases n : forall d, (length d <= n)%nat -> bytes_ok d ->
  (exists rs, splits d rs) \/ crash d \/ exists x, split_vu n d = Err x.
Proof.
  induction n as [|n IH]; intros d L B.
  - destruct d; [|cbn in L; lia]. left. eexists. constructor.
  - destruct d as [|a [|b d]].
    + left. eexists. constructor.
    + right. right. eexists. reflexivity.
    + apply bytes_ok_cons in B as [Ba B]. apply bytes_ok_cons in B as [Bb B].
      destruct (find_transfer_type (be [a; b])) as [t|] eqn:F.
      2: { right. right. eexists. cbn [split_vu length Nat.eqb Nat.ltb Nat.leb negb guard bind]. unfold sub. cbn [skipn firstn].
           rewrite F. reflexivity. }
      apply find_type_iff in F as [-> ->]; auto.
      assert (K : forall v e, d = v ++ e -> value_of t v e -> (forall c, crash c -> c = e -> crash (0x76 :: trep_of t :: d)) ->
        (exists rs, splits (0x76 :: trep_of t :: d) rs) \/ crash (0x76 :: trep_of t :: d) \/ exists x, split_vu (S n) (0x76 :: trep_of t :: d) = Err x).
      { intros v e -> V CR. apply bytes_ok_app in B as [Bv Be]. cbn [length] in L. rewrite app_length in L.
        destruct (IH e) as [[rs H]|[C|[x X]]]; [lia|auto|..].
        - left. eexists. constructor; eauto.
        - right. left. eapply CR; eauto.
        - right. right. exists x. rewrite split_head, size_value by auto. rewrite skipn_len, X. reflexivity. }
      destruct (layout_of t) as [[l tail]|] eqn:E.
      * pose proof (proj1 (layout_in t l tail) E) as I.
        destruct (scan_cases l tail (layouts_ok _ I) [] d B) as [(v & e & D & V)|[O|R]].
        -- apply (K v e D); [unfold value_of; now rewrite E|]. intros c C ->. rewrite D. eapply crash_later; eauto.
        -- right. left. eapply crash_here; eauto.
        -- right. right. exists EOther. rewrite split_head, (size_then t l tail) by auto.
           change (len []) with 0 in R. cbn [List.app] in R. destruct R as [R|(m & R & M)]; rewrite R; [reflexivity|].
           cbn [bind]. apply Z.ltb_lt in M. now rewrite M.
      * destruct t; try discriminate.
        destruct (size_card_cases (length d) d (le_n _) B) as [(v & e & D & V & L5)|[x X]].
        -- apply (K v e D); [unfold value_of; cbn [layout_of]; auto|]. intros c C ->. rewrite D. now apply crash_card.
        -- right. right. exists x. rewrite split_head. cbn [size_of_transfer_value]. now rewrite X.
Qed.

(** The splitter, completely. *)
Theorem split_spec d : bytes_ok d ->
  (forall rs, unmarshal_raw_vu d = Ok rs <-> splits d rs) /\ (unmarshal_raw_vu d = Panic <-> crash d).
Proof.
  intros B. unfold unmarshal_raw_vu. split; [intros rs; split|split].
  - intros E. destruct (split_cases (length d) d (le_n _) B) as [[rs' H]|[C|[x X]]].
    + rewrite (split_ok d rs' H) in E by lia. apply Ok_inj in E. now subst.
    + rewrite (split_crash d C B) in E by lia. discriminate.
    + congruence.
  - intros S. apply split_ok; auto.
  - intros E. destruct (split_cases (length d) d (le_n _) B) as [[rs' H]|[C|[x X]]]; auto.
    + rewrite (split_ok d rs' H) in E by lia. discriminate.
    + congruence.
  - intros C. apply split_crash; auto.
Qed.

(** ** Parsing never crashes *)

Lemma bind_np {A B} (r : res A) (f : A -> res B) : r <> Panic -> (forall a, f a <> Panic) -> bind r f <> Panic.
Proof. intros R F E. apply bind_panic in E as [E|(a & _ & E)]; [now apply R|now apply (F a)]. Qed.

Ltac np := repeat first [discriminate | apply guard_no_panic | apply unmarshal_enum_no_panic
  | apply unmarshal_time_no_panic | apply unmarshal_string_no_panic | apply unmarshal_ia5_no_panic | apply unmarshal_vreg_no_panic
  | apply unmarshal_holder_name_no_panic | match goal with |- (let (_, _) := ?p in _) <> Panic => destruct p end
  | match goal with |- (if ?b then _ else _) <> Panic => destruct b end
  | match goal with |- bind _ _ <> Panic => apply bind_np; [|intros ?] end].

Lemma driver_id_np d : unmarshal_driver_id d <> Panic.
Proof. unfold unmarshal_driver_id. np. Qed.

Lemma owner_id_np d : unmarshal_owner_id d <> Panic.
Proof. unfold unmarshal_owner_id. np. Qed.

Lemma fcn_np d : unmarshal_full_card_number d <> Panic.
Proof. unfold unmarshal_full_card_number. np; first [apply driver_id_np|apply owner_id_np]. Qed.

Lemma odometer_np d : unmarshal_odometer d <> Panic.
Proof. unfold unmarshal_odometer. np. Qed.

Lemma date_np d : unmarshal_date d <> Panic.
Proof. unfold unmarshal_date. np. Qed.

Lemma change_np d : unmarshal_activity_change d <> Panic.
Proof. unfold unmarshal_activity_change. np. Qed.

Lemma spec_cond_np d : unmarshal_spec_cond d <> Panic.
Proof. unfold unmarshal_spec_cond. np. destruct (unmarshal_enum specific_condition_type_table (nth 4 d 0)); discriminate. Qed.

Lemma control_type_np d : unmarshal_control_type d <> Panic.
Proof. unfold unmarshal_control_type. np. Qed.

Lemma previous_np cm d : unmarshal_previous_vehicle cm d <> Panic.
Proof. unfold unmarshal_previous_vehicle. np. Qed.

Ltac np2 := repeat first [progress np | apply driver_id_np | apply owner_id_np | apply fcn_np | apply odometer_np | apply date_np
  | apply change_np | apply spec_cond_np | apply control_type_np | apply previous_np].

Lemma card_iw_np cm d : unmarshal_card_iw cm d <> Panic.
Proof. unfold unmarshal_card_iw. np2. Qed.

Lemma lock_np cm d : unmarshal_lock cm d <> Panic.
Proof. unfold unmarshal_lock. np2. Qed.

Lemma vu_control_np d : unmarshal_vu_control d <> Panic.
Proof. unfold unmarshal_vu_control. np2. Qed.

Lemma vu_place_np d : unmarshal_vu_place d <> Panic.
Proof. unfold unmarshal_vu_place. np2. Qed.

Lemma eat_np n d : eat n d <> Panic.
Proof. unfold eat. np. Qed.

Lemma eat_records_np {X} (un : bytes -> res X) n k : (forall d, un d <> Panic) -> forall d, eat_records un n k d <> Panic.
Proof.
  intros U. induction k as [|k IH]; intros d; cbn [eat_records]; [discriminate|].
  np; first [apply eat_np|apply U|apply IH].
Qed.

Ltac np3 := repeat first [progress np2 | apply eat_np
  | apply eat_records_np; intros ?; first [apply card_iw_np|apply lock_np|apply vu_control_np|apply vu_place_np|apply change_np|apply spec_cond_np]].

Lemma overview_np cm d : unmarshal_overview_gen1 cm d <> Panic.
Proof. unfold unmarshal_overview_gen1. np3. Qed.

Lemma activities_np cm d : unmarshal_activities_gen1 cm d <> Panic.
Proof. unfold unmarshal_activities_gen1. np3. Qed.

Lemma raw_signed_np d : unmarshal_raw_signed d <> Panic.
Proof. unfold unmarshal_raw_signed. np. Qed.

(** ** Second-generation values *)

Lemma sub_prefix (l m : bytes) i n : (i + n <= length l)%nat -> sub (l ++ m) i n = sub l i n.
Proof.
  intros L. unfold sub. rewrite skipn_app. replace (i - length l)%nat with 0%nat by lia. cbn [skipn].
  rewrite firstn_app, skipn_length. replace (n - (length l - i))%nat with 0%nat by lia. cbn [firstn]. apply app_nil_r.
Qed.

Lemma arrays_walk n : forall v, fills (repeat array n) 0 v -> bytes_ok v -> forall p m,
  match skip_record_arrays m (p ++ v) (len p) with
  | Ok o => (m <= n)%nat /\ o <= len (p ++ v) /\ (o = len (p ++ v) <-> m = n)
  | Err _ => (n < m)%nat
  | Panic => False
  end.
Proof.
  induction n as [|n IH]; intros v F B p m.
  - inversion F as [? ? L|]; subst. destruct v; [|discriminate]. rewrite app_nil_r.
    destruct m as [|m]; cbn [skip_record_arrays]; [split; [lia|]; split; [lia|tauto]|].
    unfold size_of_record_array. pose proof (from_len p []) as FL. rewrite app_nil_r in FL. rewrite FL. cbn. lia.
  - inversion F as [|? ? ? a h b e A H Bb F']; subst. destruct a; [|discriminate]. cbn [List.app] in *.
    apply bytes_ok_app in B as [Bh B]. apply bytes_ok_app in B as [Bbb B].
    destruct m as [|m]; cbn [skip_record_arrays].
    + split; [lia|]. rewrite !len_app. cbn [array st_head] in H. unfold len. rewrite H. split; [lia|]. split; intros; lia.
    + unfold size_of_record_array. rewrite from_len. cbn [bind].
      cbn [array st_head st_body] in *.
      replace (length (h ++ b ++ e) <? 5)%nat with false by (symmetry; apply Nat.ltb_ge; rewrite app_length; lia).
      cbn [negb guard bind].
      replace (sub (h ++ b ++ e) 1 2) with (sub h 1 2) by (symmetry; apply sub_prefix; lia).
      replace (sub (h ++ b ++ e) 3 2) with (sub h 3 2) by (symmetry; apply sub_prefix; lia).
      rewrite <- Bb. replace (len p + (5 + Z.of_nat (length b))) with (len (p ++ h ++ b)) by (rewrite !len_app; unfold len; lia).
      specialize (IH e F' B (p ++ h ++ b) m).
      replace (p ++ h ++ b ++ e) with ((p ++ h ++ b) ++ e) by now rewrite <- !app_assoc.
      destruct (skip_record_arrays m _ _); [|lia|contradiction]. destruct IH as (I1 & I2 & I3). split; [lia|]. split; [lia|].
      rewrite I3. lia.
Qed.

Lemma gen2_value t v : fills (repeat array (arrays_sized t)) 0 v -> bytes_ok v ->
  if (arrays_sized t =? arrays_parsed t)%nat then unmarshal_gen2 t v = Ok v else exists x, unmarshal_gen2 t v = Err x.
Proof.
  intros F B. pose proof (arrays_walk _ v F B [] (arrays_parsed t)) as W. change (len []) with 0 in W. cbn [List.app] in W.
  unfold unmarshal_gen2. destruct (skip_record_arrays _ v 0) as [o|e|]; [| |contradiction].
  - destruct W as (W1 & W2 & W3). cbn [bind]. destruct (Nat.eqb_spec (arrays_sized t) (arrays_parsed t)) as [E|E].
    + rewrite (proj2 W3) by auto. rewrite Z.eqb_refl. reflexivity.
    + destruct (Z.eqb_spec o (len v)) as [->|N]; [|eexists; reflexivity]. destruct E. symmetry. now apply W3.
  - destruct (Nat.eqb_spec (arrays_sized t) (arrays_parsed t)) as [E|E]; [lia|]. eexists. reflexivity.
Qed.
