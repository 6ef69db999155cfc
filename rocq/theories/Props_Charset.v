(** C116: text is read in the character set it names. *)

From Verif Require Import Base Enums DDScalar Utf8 DDString P_Utf8 P_String Props_String P_Ident.

(** The code pages with a character set of their own: ISO 8859-2, -3, -5, -7, -9, -13,
    -15 and -16, KOI8-R and KOI8-U.  The others are read as ISO 8859-1, whose
    characters have the numbers of their bytes. *)
Definition own_charset : list Z := [2; 3; 5; 7; 9; 13; 15; 16; 80; 85].

Definition character (cm : Z -> Z -> Z) (cp b : Z) : Z := if in_dec Z.eq_dec cp own_charset then cm cp b else b.

(** The characters taken off both ends: blanks, zero and the replacement character. *)
Definition taken_off (r : Z) : Prop := In r [0; 9; 10; 11; 12; 13; 32; 0xFFFD].

(** [core] is [all] without them. *)
Definition stripped (all core : list Z) : Prop :=
  exists pre post, all = pre ++ core ++ post /\ Forall taken_off pre /\ Forall taken_off post /\
    (core = [] \/ (~ taken_off (hd 0 core) /\ ~ taken_off (last core 0))).

Lemma taken_off_cut r : in_cutset r = true <-> taken_off r.
Proof.
  unfold in_cutset, taken_off. change rune_error with 0xFFFD. rewrite existsb_exists. split.
  - intros (x & I & E). apply Z.eqb_eq in E. subst x. cbn [In] in *. intuition auto.
  - intros I. exists r. rewrite Z.eqb_refl. split; auto. cbn [In] in *. intuition auto.
Qed.

Lemma taken_off_keep r : in_cutset r = false <-> ~ taken_off r.
Proof. rewrite <- taken_off_cut. destruct (in_cutset r); split; congruence. Qed.

Lemma strip_end rs : exists a post, rs = a ++ post /\ Forall taken_off post /\ (a = [] \/ ~ taken_off (last a 0)).
Proof.
  induction rs as [|r rs IH] using rev_ind; [exists [], []; auto|].
  destruct (in_cutset r) eqn:C.
  - destruct IH as (a & post & -> & F & E). exists a, (post ++ [r]). rewrite app_assoc. split; auto. split; auto.
    apply Forall_app. split; auto. constructor; auto. now apply taken_off_cut.
  - exists (rs ++ [r]), []. rewrite app_nil_r. split; auto. split; auto. right. rewrite last_last. now apply taken_off_keep.
Qed.

Lemma strip_front rs : exists pre a, rs = pre ++ a /\ Forall taken_off pre /\ (a = [] \/ ~ taken_off (hd 0 a)).
Proof.
  induction rs as [|r rs IH]; [exists [], []; auto|]. destruct (in_cutset r) eqn:C.
  - destruct IH as (pre & a & -> & F & E). exists (r :: pre), a. split; auto. split; auto. constructor; auto. now apply taken_off_cut.
  - exists [], (r :: rs). split; auto. split; auto. right. now apply taken_off_keep.
Qed.

Lemma stripped_exists rs : exists pre core post, rs = pre ++ core ++ post /\ Forall taken_off pre /\ Forall taken_off post /\
  (core = [] /\ pre = [] \/ (~ taken_off (hd 0 core) /\ ~ taken_off (last core 0))).
Proof.
  destruct (strip_end rs) as (a & post & -> & F & E). destruct (strip_front a) as (pre & core & -> & F' & E').
  exists pre, core, post. split; [now rewrite app_assoc|].
  destruct core as [|c core].
  - rewrite app_nil_r in *. destruct pre as [|p pre]; [auto 10|]. exfalso. destruct E as [E|E]; [discriminate|]. apply E.
    rewrite Forall_forall in F'. apply F'. rewrite (app_removelast_last 0 (l := p :: pre)) at 2 by discriminate.
    apply in_app_iff. right. now left.
  - split; auto. split; auto. right. destruct E' as [E'|E']; [discriminate|]. split; auto.
    destruct E as [E|E]; [destruct pre; discriminate|]. intros T. apply E. rewrite (app_removelast_last 0 (l := c :: core)) by discriminate. rewrite app_assoc, last_last. exact T.
Qed.

Lemma utf8_length rs : (length rs <= length (utf8 rs))%nat.
Proof.
  induction rs as [|r rs IH]; [auto|]. change (utf8 (r :: rs)) with (encode_rune r ++ utf8 rs). rewrite app_length.
  pose proof (encode_rune_length r). cbn [length]. lia.
Qed.

Lemma utf8_one r : utf8 [r] = encode_rune r.
Proof. unfold utf8. cbn [map concat]. apply app_nil_r. Qed.

Lemma trim_right_runes : forall post a f, Forall scalar post -> Forall taken_off post -> (length post <= f)%nat ->
  trim_right f (utf8 (a ++ post)) = trim_right (f - length post) (utf8 a).
Proof.
  induction post as [|r post IH] using rev_ind; intros a f SC C L; [now rewrite app_nil_r, Nat.sub_0_r|].
  apply Forall_app in SC as [SC SR]. apply Forall_app in C as [C CR]. inversion SR; inversion CR; subst.
  rewrite app_length in *. cbn [length] in *. destruct f as [|f]; [lia|].
  rewrite app_assoc, utf8_app, utf8_one. cbn [trim_right].
  destruct (utf8 (a ++ post) ++ encode_rune r) eqn:E.
  { exfalso. apply app_eq_nil in E as [_ E]. pose proof (encode_rune_length r). rewrite E in *. cbn in *. lia. }
  rewrite <- E. rewrite decode_last_encode by auto. replace (in_cutset r) with true by (symmetry; now apply taken_off_cut).
  rewrite app_length, Nat.add_sub. rewrite P_Utf8.firstn_app_exact by reflexivity. rewrite IH by (auto; lia).
  f_equal. lia.
Qed.

Lemma trim_left_runes : forall pre a f, Forall scalar pre -> Forall taken_off pre -> (length pre <= f)%nat ->
  trim_left f (utf8 (pre ++ a)) = trim_left (f - length pre) (utf8 a).
Proof.
  induction pre as [|r pre IH]; intros a f SC C L; [now rewrite Nat.sub_0_r|].
  inversion SC; inversion C; subst. cbn [length] in L. destruct f as [|f]; [lia|].
  change (utf8 ((r :: pre) ++ a)) with (encode_rune r ++ utf8 (pre ++ a)). cbn [trim_left].
  destruct (encode_rune r ++ utf8 (pre ++ a)) eqn:E.
  { exfalso. apply app_eq_nil in E as [E _]. pose proof (encode_rune_length r). rewrite E in *. cbn in *. lia. }
  rewrite <- E. rewrite decode_encode by auto. replace (in_cutset r) with true by (symmetry; now apply taken_off_cut).
  rewrite P_Utf8.skipn_app_exact by reflexivity. rewrite IH by (auto; lia). reflexivity.
Qed.

Lemma trim_utf8 rs : Forall scalar rs -> exists core, stripped rs core /\ make_valid (trim (utf8 rs)) = utf8 core.
Proof.
  intros SC. destruct (stripped_exists rs) as (pre & core & post & -> & C1 & C2 & E).
  apply Forall_app in SC as [S1 SC]. apply Forall_app in SC as [S2 S3].
  exists core. split. { exists pre, post. split; auto. split; auto. split; auto. destruct E as [[E _]|E]; auto. }
  assert (T : trim (utf8 (pre ++ core ++ post)) = utf8 core).
  { unfold trim. rewrite app_assoc. rewrite trim_right_runes; auto.
    2:{ pose proof (utf8_length ((pre ++ core) ++ post)). rewrite app_length in H at 1. lia. }
    destruct core as [|c core].
    - destruct E as [[_ ->]|[E _]]; [|exfalso; apply E; cbn; lia]. cbn [List.app]. change (utf8 []) with (@nil Z).
      destruct (length (utf8 post) - length post)%nat; reflexivity.
    - destruct E as [[E _]|[E1 E2]]; [discriminate|].
      assert (LS : scalar (last (c :: core) 0)).
      { rewrite Forall_forall in S2. apply S2. rewrite (app_removelast_last 0 (l := c :: core)) at 2 by discriminate.
        apply in_app_iff. right. now left. }
      assert (R : forall f, trim_right f (utf8 (pre ++ c :: core)) = utf8 (pre ++ c :: core)).
      { intros f. rewrite (app_removelast_last 0 (l := c :: core)) by discriminate. rewrite app_assoc, utf8_app, utf8_one.
        apply trim_right_stop; auto. now apply taken_off_keep. }
      rewrite R. rewrite trim_left_runes; auto.
      2:{ pose proof (utf8_length (pre ++ c :: core)). rewrite app_length in H at 1. lia. }
      change (utf8 (c :: core)) with (encode_rune c ++ utf8 core). apply trim_left_stop; [now inversion S2|now apply taken_off_keep]. }
  rewrite T. unfold make_valid. now rewrite valid_utf8_text by auto.
Qed.

(** A character map is a function to characters, that is, Unicode scalar values. *)
Definition charmaps_ok (cm : Z -> Z -> Z) : Prop := forall cp b, byte_ok b -> scalar (cm cp b).

(** The number of a code page in the Encoding enumeration; 1 is unrecognized. *)
Definition encodings : list (Z * Z) :=
  [(0, 2); (1, 4); (2, 5); (3, 6); (5, 7); (7, 8); (9, 9); (13, 10); (15, 11); (16, 12); (80, 13); (85, 14); (255, 3)].

Lemma charmap_character cm cp b : byte_ok cp -> charmap_rune cm cp b = character cm cp b.
Proof.
  intros H. unfold character. destruct (in_dec Z.eq_dec cp own_charset) as [I|I].
  - cbn [own_charset In] in I. repeat (destruct I as [<-|I]; [reflexivity|]). destruct I.
  - assert (D : ~ (cp = 2 \/ cp = 3 \/ cp = 5 \/ cp = 7 \/ cp = 9 \/ cp = 13 \/ cp = 15 \/ cp = 16 \/ cp = 80 \/ cp = 85)).
    { intros J. apply I. cbn [own_charset In]. intuition auto. }
    clear I. unfold charmap_rune. unfold byte_ok in H.
    repeat match goal with |- context [match ?x with _ => _ end] => destruct x; try reflexivity; try lia end.
Qed.

Theorem C116_charset : forall cm cp text, charmaps_ok cm -> byte_ok cp -> bytes_ok text -> text <> [] ->
  exists sv, unmarshal_string_value cm (cp :: text) = Ok sv /\
  (* no text: code page 255, or nothing but zeros and 0xFF *)
  (cp = 255 \/ Forall (fun b => b = 0 \/ b = 255) text -> sv_value sv = []) /\
  (* otherwise the characters of the bytes, without the blanks around them *)
  (cp <> 255 -> Exists (fun b => b <> 0 /\ b <> 255) text ->
     exists core, stripped (map (character cm cp) text) core /\ sv_value sv = utf8 core) /\
  (* and the code page by its number *)
  sv_length sv = Some (Z.of_nat (length text)) /\
  (In (cp, sv_encoding sv) encodings \/ (~ In cp (map fst encodings) /\ sv_encoding sv = 1)).
Proof.
  intros cm cp text CM H HT NE.
  assert (L : (length (cp :: text) <? 2)%nat = false) by (destruct text; [congruence|reflexivity]).
  unfold unmarshal_string_value. rewrite L. cbn [nth skipn]. eexists. split; [reflexivity|]. cbn [sv_value sv_length sv_encoding].
  unfold decode_with_code_page. split; [|split; [|split; [reflexivity|]]].
  - intros [->|F]; [reflexivity|]. destruct (cp =? 255); [reflexivity|].
    assert (X : existsb (fun b => (0 <? b) && (b <? 255)) text = false).
    { clear - F. induction F as [|b text [->| ->] F IH]; [reflexivity|exact IH|exact IH]. }
    rewrite X. reflexivity.
  - intros N X. destruct (Z.eqb_spec cp 255); [contradiction|].
    assert (Y : existsb (fun b => (0 <? b) && (b <? 255)) text = true).
    { apply Exists_exists in X as (b & I & B1 & B2). apply existsb_exists. exists b. split; auto.
      unfold bytes_ok in HT. rewrite Forall_forall in HT. specialize (HT b I). unfold byte_ok in HT.
      destruct (Z.ltb_spec 0 b); [|lia]. destruct (Z.ltb_spec b 255); [reflexivity|lia]. }
    rewrite Y. cbn [negb].
    assert (M : concat (map (fun b => encode_rune (charmap_rune cm cp b)) text) = utf8 (map (character cm cp) text)).
    { unfold utf8. rewrite map_map. f_equal. apply map_ext. intros b. now rewrite charmap_character. }
    rewrite M. apply trim_utf8. unfold bytes_ok in HT. rewrite Forall_forall in *. intros r I. apply in_map_iff in I as (b & <- & I).
    unfold character. destruct (in_dec _ _ _); [apply CM; auto|]. specialize (HT b I). unfold byte_ok in HT. unfold scalar. lia.
  - destruct (in_dec Z.eq_dec cp (map fst encodings)) as [I|I].
    + left. cbn [encodings map fst In] in I. repeat (destruct I as [<-|I]; [cbn; tauto|]). destruct I.
    + right. split; auto.
      assert (D : ~ (cp = 0 \/ cp = 1 \/ cp = 2 \/ cp = 3 \/ cp = 5 \/ cp = 7 \/ cp = 9 \/ cp = 13 \/ cp = 15 \/ cp = 16 \/ cp = 80 \/ cp = 85 \/ cp = 255)).
      { intros J. apply I. cbn [encodings map fst In]. intuition auto. }
      clear I. unfold encoding_of_code_page, byte_ok in *.
      repeat match goal with |- context [match ?x with _ => _ end] => destruct x; try reflexivity; try lia end.
Qed.
Print Assumptions C116_charset.

(** Texts without a code page are ASCII. *)
Theorem C116_ascii : forall text, Forall (fun b => 0 <= b < 128) text -> text <> [] ->
  exists s, unmarshal_ia5 text = Ok s /\ stripped text (ia5_value s).
Proof.
  intros text H N. unfold unmarshal_ia5. destruct text as [|b0 t]; [congruence|]. set (text := b0 :: t) in *.
  change (length text =? 0)%nat with false. cbv iota. eexists. split; [reflexivity|]. cbn [ia5_value].
  assert (U : forall l, Forall (fun b => 0 <= b < 128) l -> utf8 l = l).
  { clear. induction 1 as [|b l B F IH]; [reflexivity|]. change (utf8 (b :: l)) with (encode_rune b ++ utf8 l). rewrite IH.
    rewrite encode_rune_scalar by (unfold scalar; lia). destruct (Z.ltb_spec b 128); [reflexivity|lia]. }
  destruct (trim_utf8 text) as (core & S & E).
  { rewrite Forall_forall in *. intros b I. specialize (H b I). unfold scalar. lia. }
  rewrite U in E by auto. rewrite E. rewrite U; auto.
  destruct S as (pre & post & Q & _). rewrite Q in H. apply Forall_app in H as [_ H]. apply Forall_app in H. tauto.
Qed.
Print Assumptions C116_ascii.

(** Code page 80 with the map of KOI8-R for one letter: "Да" with blanks around. *)
Example C116_example :
  let cm cp b := if (cp =? 80) && (b =? 0xE4) then 0x414 else if (cp =? 80) && (b =? 0xC1) then 0x430 else b in
  charmaps_ok cm /\ stripped (map (character cm 80) [32; 0xE4; 0xC1; 32; 0]) [0x414; 0x430] /\
  unmarshal_string_value cm [80; 32; 0xE4; 0xC1; 32; 0] =
    Ok (mkSV (Some [80; 32; 0xE4; 0xC1; 32; 0]) 13 (Some 5) [0xD0; 0x94; 0xD0; 0xB0]).
Proof.
  cbv zeta. split; [|split; [|reflexivity]].
  - intros cp b B. unfold byte_ok in B. unfold scalar. destruct (_ && _); [lia|]. destruct (_ && _); lia.
  - exists [32], [32; 0]. split; [reflexivity|]. split; [repeat constructor; cbn; lia|]. split; [repeat constructor; cbn; lia|].
    right. cbn. split; intros I; unfold taken_off in I; cbn in I; lia.
Qed.
