(** Properties C100 and C101: the dates in the index, and what is taken from the table of
    the web site. *)

From Coq Require Import String Ascii.
From Verif Require Import Base DDScalar Cert Verify FetchCerts P_Basic P_Scalar P_Cert Props_FetchRun Props_FetchIndex.
Local Open Scope list_scope.

(** The bytes of a text in ASCII. *)
Definition word (s : string) : bytes := map (fun c => Z.of_nat (nat_of_ascii c)) (list_ascii_of_string s).

(** * C100: dates *)

(** The Gregorian calendar. *)
Definition february (y : Z) : Z :=
  if (y mod 400 =? 0) then 29 else if (y mod 100 =? 0) then 28 else if (y mod 4 =? 0) then 29 else 28.
Definition months (y : Z) : list Z := [31; february y; 31; 30; 31; 30; 31; 31; 30; 31; 30; 31].

Definition calendar_day (y m d : Z) : Prop :=
  0 <= y <= 9999 /\ 1 <= m <= 12 /\ 1 <= d <= nth (Z.to_nat (m - 1)) (months y) 0.

Definition sum (l : list Z) : Z := fold_right Z.add 0 l.

(** Days from 1 January 1970 to a day: the years since, the months of its year, its
    days. *)
Definition days_since_1970 (y m d : Z) : Z :=
  sum (map (fun i => sum (months (1970 + Z.of_nat i))) (seq 0 (Z.to_nat (y - 1970)))) +
  sum (firstn (Z.to_nat (m - 1)) (months y)) + (d - 1).

Lemma days_in_months y m : 1 <= m <= 12 -> days_in y m = nth (Z.to_nat (m - 1)) (months y) 0.
Proof.
  intros H.
  assert (Q : m = 1 \/ m = 2 \/ m = 3 \/ m = 4 \/ m = 5 \/ m = 6 \/ m = 7 \/ m = 8 \/ m = 9 \/ m = 10 \/ m = 11 \/ m = 12) by lia.
  destruct Q as [->|[->|[->|[->|[->|[->|[->|[->|[->|[->|[->| ->]]]]]]]]]]]; try reflexivity.
  unfold days_in, leap, months. cbn [Z.eqb Pos.eqb].
  change (nth _ _ 0) with (february y). unfold february.
  destruct (Z.eqb_spec (y mod 400) 0); destruct (Z.eqb_spec (y mod 100) 0); destruct (Z.eqb_spec (y mod 4) 0);
    cbn [andb orb negb]; try reflexivity; exfalso; Z.div_mod_to_equations; lia.
Qed.

(** ** Dates of the web site *)

(** Decimal digits without a sign. *)
Lemma pad_dec_length n : forall v, length (pad_dec n v) = n.
Proof. induction n as [|n IH]; intros v; [reflexivity|]. cbn [pad_dec]. rewrite app_length, IH. cbn. lia. Qed.

Lemma pad_dec_digits n : forall v, Forall (fun b => 48 <= b <= 57) (pad_dec n v).
Proof.
  induction n as [|n IH]; intros v; [constructor|]. cbn [pad_dec]. apply Forall_app. split; [apply IH|].
  constructor; [|constructor]. pose proof (Z.mod_pos_bound v 10). lia.
Qed.

Lemma digits_value_iff l v : digits_value l = Some v <->
  v = fold_left (fun a b => a * 10 + (b - 48)) l 0 /\ Forall (fun b => 48 <= b <= 57) l.
Proof.
  unfold digits_value. destruct (forallb digit l) eqn:E.
  - rewrite forallb_forall in E. split.
    + intros Q. injection Q as <-. split; [reflexivity|]. apply Forall_forall. intros b I. specialize (E b I). unfold digit in E. lia.
    + intros [-> _]. reflexivity.
  - split; [discriminate|]. intros [_ F]. exfalso.
    assert (X : forallb digit l = true); [|congruence].
    apply forallb_forall. intros b I. rewrite Forall_forall in F. specialize (F b I). unfold digit. lia.
Qed.

Lemma digits_value_pad n v : 0 <= v < 10 ^ Z.of_nat n -> digits_value (pad_dec n v) = Some v.
Proof.
  intros H. apply digits_value_iff. split; [|apply pad_dec_digits].
  revert v H. induction n as [|n IH]; intros v H; [change (10 ^ Z.of_nat 0) with 1 in H; cbn; lia|].
  cbn [pad_dec]. rewrite fold_left_app. cbn [fold_left]. rewrite Nat2Z.inj_succ, Z.pow_succ_r in H by lia.
  rewrite <- IH; Z.div_mod_to_equations; lia.
Qed.

Lemma pad_of_digits l : forall v, digits_value l = Some v -> l = pad_dec (length l) v /\ 0 <= v < 10 ^ Z.of_nat (length l).
Proof.
  induction l as [|b l IH] using rev_ind; intros v H.
  - cbn in H. injection H as <-. cbn. split; [reflexivity|lia].
  - apply digits_value_iff in H as [-> Fl]. apply Forall_app in Fl as [Fl Fb]. inversion Fb as [|? ? Hb _]; subst.
    destruct (IH _ (proj2 (digits_value_iff l _) (conj eq_refl Fl))) as [E R].
    rewrite fold_left_app, app_length, Nat.add_1_r. cbn [fold_left pad_dec].
    set (w := fold_left _ l 0) in *. rewrite Nat2Z.inj_succ, Z.pow_succ_r by lia. split; [|lia].
    replace ((w * 10 + (b - 48)) / 10) with w by (Z.div_mod_to_equations; lia).
    rewrite <- E. f_equal. f_equal. Z.div_mod_to_equations; lia.
Qed.

(** The date as the site writes it, DD/MM/YYYY, and the ISO form. *)
Definition site_date (y m d : Z) : bytes := pad_dec 2 d ++ [47] ++ pad_dec 2 m ++ [47] ++ pad_dec 4 y.
Definition iso_date (y m d : Z) : bytes := pad_dec 4 y ++ [45] ++ pad_dec 2 m ++ [45] ++ pad_dec 2 d.

Lemma parse_iso_iff s y m d : parse_iso_date s = Some (y, m, d) <-> calendar_day y m d /\ s = iso_date y m d.
Proof.
  split.
  - intros H. unfold parse_iso_date in H.
    destruct s as [|y1 [|y2 [|y3 [|y4 [|h1 [|m1 [|m2 [|h2 [|d1 [|d2 [|? ?]]]]]]]]]]]; try discriminate H.
    destruct (Z.eqb_spec h1 45) as [->|]; [|discriminate H]. destruct (Z.eqb_spec h2 45) as [->|]; [|discriminate H]. cbn [andb] in H.
    destruct (digits_value [y1; y2; y3; y4]) as [vy|] eqn:Ey; [|discriminate H].
    destruct (digits_value [m1; m2]) as [vm|] eqn:Em; [|discriminate H].
    destruct (digits_value [d1; d2]) as [vd|] eqn:Ed; [|discriminate H].
    destruct (_ && _ && _ && _) eqn:G in H; [|discriminate H]. injection H as -> -> ->.
    apply pad_of_digits in Ey as [Ey Ry]. apply pad_of_digits in Em as [Em Rm]. apply pad_of_digits in Ed as [Ed Rd].
    cbn [length] in *. change (10 ^ Z.of_nat 4) with 10000 in Ry.
    rewrite !andb_true_iff, !Z.leb_le in G. destruct G as (((G1 & G2) & G3) & G4).
    split.
    + split; [lia|]. split; [lia|]. split; [lia|]. rewrite <- days_in_months by lia. exact G4.
    + unfold iso_date. rewrite <- Ey, <- Em, <- Ed. reflexivity.
  - intros ((Hy & Hm & Hd) & ->). unfold iso_date.
    assert (Hd' : d <= 31).
    { rewrite <- days_in_months in Hd by lia. unfold days_in in Hd. destruct (m =? 2); [destruct (leap y)|destruct (_ || _)]; lia. }
    pose proof (digits_value_pad 4 y ltac:(cbn; lia)) as Ey. pose proof (pad_dec_length 4 y) as Ly.
    pose proof (digits_value_pad 2 m ltac:(cbn; lia)) as Em. pose proof (pad_dec_length 2 m) as Lm.
    pose proof (digits_value_pad 2 d ltac:(cbn; lia)) as Ed. pose proof (pad_dec_length 2 d) as Ld.
    destruct (pad_dec 4 y) as [|y1 [|y2 [|y3 [|y4 [|? ?]]]]]; try discriminate Ly.
    destruct (pad_dec 2 m) as [|m1 [|m2 [|? ?]]]; try discriminate Lm.
    destruct (pad_dec 2 d) as [|d1 [|d2 [|? ?]]]; try discriminate Ld.
    cbn [List.app]. unfold parse_iso_date. cbn [Z.eqb Pos.eqb andb]. rewrite Ey, Em, Ed.
    rewrite days_in_months by lia.
    replace (_ && _ && _ && _) with true; [reflexivity|]. symmetry. rewrite !andb_true_iff, !Z.leb_le. lia.
Qed.

Lemma split_on_app c a b : ~ In c a -> split_on c (a ++ c :: b) = a :: split_on c b.
Proof.
  induction a as [|x a IH]; intros N; cbn [List.app split_on]; [now rewrite Z.eqb_refl|].
  destruct (Z.eqb_spec x c) as [->|]; [exfalso; apply N; now left|].
  rewrite IH by (intros I; apply N; now right). reflexivity.
Qed.

Lemma split_on_three c s a b d : split_on c s = [a; b; d] -> s = a ++ c :: b ++ c :: d.
Proof.
  assert (One : forall t x, split_on c t = [x] -> t = x).
  { induction t as [|h t IH]; intros x H; cbn in H; [congruence|].
    destruct (Z.eqb_spec h c); [destruct (split_on c t) as [|? [|? ?]] eqn:E; try discriminate H;
      exfalso; clear - E; destruct t; cbn in E; [discriminate|]; destruct (_ =? c); [discriminate|]; destruct (split_on c t); discriminate|].
    destruct (split_on c t) as [|y [|? ?]] eqn:E; try discriminate H.
    - exfalso. clear - E. destruct t; cbn in E; [discriminate|]; destruct (_ =? c); [discriminate|]; destruct (split_on c t); discriminate.
    - injection H as <-. f_equal. now apply IH. }
  assert (Two : forall t x y, split_on c t = [x; y] -> t = x ++ c :: y).
  { induction t as [|h t IH]; intros x y H; cbn in H; [discriminate H|].
    destruct (Z.eqb_spec h c) as [->|].
    - injection H as <- H. cbn. f_equal. now apply One.
    - destruct (split_on c t) as [|z [|? [|? ?]]] eqn:E; try discriminate H. injection H as <- <-. cbn. f_equal. now apply IH. }
  revert a b d. induction s as [|h t IH]; intros a b d H; cbn in H; [discriminate H|].
  destruct (Z.eqb_spec h c) as [->|].
  - injection H as <- H. cbn. f_equal. now apply Two.
  - destruct (split_on c t) as [|z [|? [|? [|? ?]]]] eqn:E; try discriminate H. injection H as <- <- <-. cbn. f_equal. now apply IH.
Qed.

Lemma has_in c s : has c s = true <-> In c s.
Proof.
  unfold has. rewrite existsb_exists. split.
  - intros (x & I & E). apply Z.eqb_eq in E. now subst x.
  - intros I. exists c. split; [exact I|apply Z.eqb_refl].
Qed.

Lemma pad_not n v c : c < 48 -> ~ In c (pad_dec n v).
Proof. intros H I. pose proof (pad_dec_digits n v) as F. rewrite Forall_forall in F. specialize (F _ I). lia. Qed.

(** The hyphens of a joined date are the joints. *)
Lemma join_iso y m d Y M D : y ++ 45 :: m ++ 45 :: d = iso_date Y M D -> y = pad_dec 4 Y /\ m = pad_dec 2 M /\ d = pad_dec 2 D.
Proof.
  intros H. unfold iso_date in H. cbn [List.app] in H.
  (* count the hyphens: the right-hand side has exactly two *)
  assert (Cn : forall n v, count 45 (pad_dec n v) = 0%nat).
  { intros n v. unfold count. assert (E : filter (Z.eqb 45) (pad_dec n v) = []); [|now rewrite E].
    pose proof (pad_dec_digits n v) as F0. clear -F0. induction F0 as [|b l Hb _ IH]; [reflexivity|].
    cbn [filter]. destruct (Z.eqb_spec 45 b); [lia|exact IH]. }
  assert (Ca : forall a b, count 45 (a ++ b) = (count 45 a + count 45 b)%nat).
  { intros a b. unfold count. now rewrite filter_app, app_length. }
  assert (Cc : forall b, count 45 (45 :: b) = Datatypes.S (count 45 b)) by reflexivity.
  assert (Cnt := f_equal (count 45) H). rewrite !Ca, !Cc, !Ca, !Cc, !Cn in Cnt. clear Ca Cc Cn.
  assert (Z0 : forall l, count 45 l = 0%nat -> ~ In 45 l).
  { intros l C I. unfold count in C. assert (X : In 45 (filter (Z.eqb 45) l)) by (apply filter_In; split; [exact I|reflexivity]).
    destruct (filter (Z.eqb 45) l); [destruct X|discriminate C]. }
  assert (Ny : ~ In 45 y) by (apply Z0; lia). assert (Nm : ~ In 45 m) by (apply Z0; lia).
  assert (Q : split_on 45 (y ++ 45 :: m ++ 45 :: d) = [y; m; d]).
  { rewrite split_on_app by exact Ny. rewrite split_on_app by exact Nm. rewrite split_on_none; [reflexivity|apply Z0; lia]. }
  assert (Q' : split_on 45 (pad_dec 4 Y ++ 45 :: pad_dec 2 M ++ 45 :: pad_dec 2 D) = [pad_dec 4 Y; pad_dec 2 M; pad_dec 2 D]).
  { rewrite split_on_app by (apply pad_not; lia). rewrite split_on_app by (apply pad_not; lia). rewrite split_on_none; [reflexivity|apply pad_not; lia]. }
  rewrite H, Q' in Q. injection Q as <- <- <-. auto.
Qed.

(** A date of the site gets into the index exactly if it names a day of the calendar in
    one of the two forms; it is then midnight UTC of that day.  Otherwise there is no date. *)
Definition shown_midnight (y m d : Z) : bytes :=
  iso_date y m d ++ [84; 48; 48; 58; 48; 48; 58; 48; 48; 90] (* T00:00:00Z *).

Theorem C100_site_dates :
  forall tx s r, parse_date_string tx s = r <->
  (exists y m d, calendar_day y m d /\ (trim_space tx s = site_date y m d \/ trim_space tx s = iso_date y m d) /\
     r = shown_midnight y m d) \/
  (~ (exists y m d, calendar_day y m d /\ (trim_space tx s = site_date y m d \/ trim_space tx s = iso_date y m d)) /\ r = []).
Proof.
  intros tx s r. set (t := trim_space tx s).
  assert (Sh : forall y m d, rfc3339 y m d 0 0 0 = shown_midnight y m d).
  { intros. unfold rfc3339, shown_midnight, iso_date. reflexivity. }
  assert (Good : forall y m d, calendar_day y m d -> (t = site_date y m d \/ t = iso_date y m d) ->
                 parse_date_string tx s = shown_midnight y m d).
  { intros y m d C [E|E]; unfold parse_date_string; fold t; rewrite E.
    - replace (has 47 (site_date y m d)) with true.
      2: { symmetry. apply has_in. unfold site_date. apply in_or_app. right. now left. }
      unfold site_date. cbn [List.app]. rewrite split_on_app by (apply pad_not; lia). rewrite split_on_app by (apply pad_not; lia).
      rewrite split_on_none by (apply pad_not; lia).
      change (pad_dec 4 y ++ 45 :: pad_dec 2 m ++ 45 :: pad_dec 2 d) with (iso_date y m d).
      rewrite (proj2 (parse_iso_iff _ _ _ _) (conj C eq_refl)). apply Sh.
    - replace (has 47 (iso_date y m d)) with false.
      2: { symmetry. destruct (has 47 (iso_date y m d)) eqn:Hs; [|reflexivity]. exfalso. apply has_in in Hs. unfold iso_date in Hs.
           cbn [List.app] in Hs. repeat (apply in_app_or in Hs as [Hs|Hs]; [revert Hs; apply pad_not; lia|]; destruct Hs as [Hs|Hs]; [discriminate Hs|]).
           revert Hs. apply pad_not. lia. }
      replace (has 45 (iso_date y m d)) with true.
      2: { symmetry. apply has_in. unfold iso_date. apply in_or_app. right. now left. }
      assert (Sp : split_on 45 (iso_date y m d) = [pad_dec 4 y; pad_dec 2 m; pad_dec 2 d]).
      { unfold iso_date. cbn [List.app]. rewrite split_on_app by (apply pad_not; lia). rewrite split_on_app by (apply pad_not; lia).
        now rewrite split_on_none by (apply pad_not; lia). }
      rewrite Sp, pad_dec_length. cbn [Nat.eqb].
      rewrite (proj2 (parse_iso_iff _ _ _ _) (conj C eq_refl)). apply Sh. }
  assert (Bad : parse_date_string tx s <> [] -> exists y m d, calendar_day y m d /\ (t = site_date y m d \/ t = iso_date y m d)).
  { intros N. unfold parse_date_string in N. fold t in N.
    destruct (has 47 t) eqn:H47.
    - destruct (split_on 47 t) as [|d [|m [|y [|? ?]]]] eqn:Sp; try (exfalso; now apply N).
      destruct (parse_iso_date (y ++ 45 :: m ++ 45 :: d)) as [[[Y M] D]|] eqn:P; [|now contradiction N].
      apply parse_iso_iff in P as [C P]. apply join_iso in P as (-> & -> & ->). apply split_on_three in Sp.
      exists Y, M, D. split; [exact C|]. left. exact Sp.
    - destruct (has 45 t); [|exfalso; now apply N].
      destruct (split_on 45 t) as [|y [|? [|? [|? ?]]]]; try (exfalso; now apply N).
      destruct (length y =? 4)%nat; [|exfalso; now apply N].
      destruct (parse_iso_date t) as [[[Y M] D]|] eqn:P; [|now contradiction N].
      apply parse_iso_iff in P as [C P]. exists Y, M, D. auto. }
  split.
  - intros <-. destruct (list_eq_dec Z.eq_dec (parse_date_string tx s) []) as [E|E].
    + right. split; [|exact E]. intros (y & m & d & C & K). rewrite (Good y m d C K) in E.
      unfold shown_midnight, iso_date in E. apply (f_equal (@length Z)) in E. rewrite !app_length in E. cbn in E. lia.
    + left. destruct (Bad E) as (y & m & d & C & K). exists y, m, d. auto.
  - intros [(y & m & d & C & K & ->)|[N ->]]; [now apply Good|].
    destruct (list_eq_dec Z.eq_dec (parse_date_string tx s) []) as [E|E]; [exact E|]. now apply Bad in E.
Qed.

Example C100_site_example :
  let tx := mkText (fun s => s) (fun s => s) in
  calendar_day 2028 2 29 /\
  parse_date_string tx [50; 57; 47; 48; 50; 47; 50; 48; 50; 56] (* 29/02/2028 *) = shown_midnight 2028 2 29 /\
  parse_date_string tx [50; 57; 47; 48; 50; 47; 50; 48; 50; 57] (* 29/02/2029 *) = [].
Proof. split; [|split; reflexivity]. vm_compute. repeat split; discriminate. Qed.

(** ** Dates of the certificates *)

(** Checking a day against the calendar. *)
Definition day_checks (n : Z) : bool :=
  let '(y, m, d) := civil n in
  (0 <=? y) && (y <=? 9999) && (1 <=? m) && (m <=? 12) && (1 <=? d) && (d <=? nth (Z.to_nat (m - 1)) (months y) 0) &&
  (365 * (y - 1970) + (y - 1969) / 4 - (y - 1901) / 100 + (y - 1601) / 400 +
   sum (firstn (Z.to_nat (m - 1)) (months y)) + (d - 1) =? n) && (1970 <=? y) && (y <=? 2106).

Lemma year_start y : 1970 <= y <= 2106 ->
  sum (map (fun i => sum (months (1970 + Z.of_nat i))) (seq 0 (Z.to_nat (y - 1970)))) =
  365 * (y - 1970) + (y - 1969) / 4 - (y - 1901) / 100 + (y - 1601) / 400.
Proof.
  intros H. rewrite <- (Z.add_simpl_l 1970 y) at 2 3 4 5.
  assert (E : forallb (fun i =>
    sum (map (fun i => sum (months (1970 + Z.of_nat i))) (seq 0 i)) =?
    (let y := 1970 + Z.of_nat i in 365 * (y - 1970) + (y - 1969) / 4 - (y - 1901) / 100 + (y - 1601) / 400)) (seq 0 137) = true)
    by (vm_compute; reflexivity).
  rewrite forallb_forall in E. specialize (E (Z.to_nat (y - 1970))). cbv zeta in E.
  rewrite Z.eqb_eq in E. rewrite E by (apply in_seq; lia). rewrite Z2Nat.id by lia.
  replace (1970 + (y - 1970)) with y by lia. replace (1970 + y - 1970) with y by lia. reflexivity.
Qed.

Fixpoint all_days (fuel : nat) (n : Z) : bool :=
  match fuel with
  | O => true
  | Datatypes.S f => day_checks n && all_days f (n + 1)
  end.

Lemma all_days_iff fuel : forall n, all_days fuel n = true -> forall i, n <= i < n + Z.of_nat fuel -> day_checks i = true.
Proof.
  induction fuel as [|f IH]; intros n H i R; [lia|]. cbn [all_days] in H. apply andb_true_iff in H as [H1 H2].
  destruct (Z.eq_dec i n) as [->|]; [exact H1|]. apply (IH (n + 1) H2). lia.
Qed.

Lemma days_checked : all_days (Z.to_nat 49711) 0 = true.
Proof. vm_cast_no_check (eq_refl true). Qed.

(** Every end of validity but zero is shown as the UTC time that many seconds after
    the start of 1970. *)
Definition shown (y m d h mi s : Z) : bytes :=
  iso_date y m d ++ [84] ++ pad_dec 2 h ++ [58] ++ pad_dec 2 mi ++ [58] ++ pad_dec 2 s ++ [90].

Theorem C100_validity_partial :
  forall t, 0 < t < 2 ^ 32 ->
  exists y m d h mi s,
    calendar_day y m d /\ 0 <= h < 24 /\ 0 <= mi < 60 /\ 0 <= s < 60 /\
    t = days_since_1970 y m d * 86400 + h * 3600 + mi * 60 + s /\
    show_eov t = shown y m d h mi s.
Proof.
  intros t H. change (2 ^ 32) with 4294967296 in H.
  pose proof (all_days_iff (Z.to_nat 49711) 0 days_checked (t / 86400)) as K.
  rewrite Z2Nat.id in K by lia. specialize (K ltac:(Z.div_mod_to_equations; lia)).
  unfold day_checks in K. unfold show_eov. destruct (Z.eqb_spec t 0); [lia|].
  destruct (civil (t / 86400)) as [[y m] d]. rewrite !andb_true_iff, !Z.leb_le, Z.eqb_eq in K.
  destruct K as ((((((((K1 & K2) & K3) & K4) & K5) & K6) & K7) & K8) & K9).
  rewrite <- year_start in K7 by lia. fold (days_since_1970 y m d) in K7.
  exists y, m, d, (t mod 86400 / 3600), (t mod 86400 / 60 mod 60), (t mod 86400 mod 60).
  split; [unfold calendar_day; lia|]. rewrite K7.
  split; [Z.div_mod_to_equations; lia|]. split; [Z.div_mod_to_equations; lia|]. split; [Z.div_mod_to_equations; lia|].
  split; [clear; Z.div_mod_to_equations; lia|]. reflexivity.
Qed.

Example C100_validity_example : show_eov 1583020800 = shown 2020 3 1 0 0 0 /\ days_since_1970 2020 3 1 * 86400 = 1583020800.
Proof. split; vm_compute; reflexivity. Qed.

(** Zero is shown as the first day of the year 1, and the value for an unlimited
    validity as a day in 2106; both replace the date of the site. *)
Theorem C100_validity_refuted :
  show_eov 0 = shown 1 1 1 0 0 0 /\
  show_eov (2 ^ 32 - 1) = shown 2106 2 7 6 28 15 /\
  exists k http n e m j, me_expires m = shown 2030 1 1 0 0 0 /\
    process_gen1 k http n e m = Some j /\ en_expires (job_entry j) = shown 1 1 1 0 0 0.
Proof.
  split; [reflexivity|]. split; [vm_compute; reflexivity|].
  destruct (extract_erca Props_Fetch.plain_root) as [[n e]| |] eqn:E; [|vm_compute in E; discriminate E..].
  exists Props_Fetch.plain_hash,
    (fun _ => Ok (Props_Fetch.plain_cert [0; 0; 0; 0; 0; 0; 0; 42] [0; 0; 0; 0] [253; 69; 67; 32; 255; 255; 255; 1])), n, e,
    (mkMeta [65] [1] [65] (shown 2030 1 1 0 0 0)).
  vm_compute in E. apply Ok_inj in E. injection E as <- <-.
  eexists. split; [reflexivity|]. split; [vm_compute; reflexivity|]. vm_compute. reflexivity.
Qed.

(** * C101: the table of the web site *)

Inductive within : node -> node -> Prop :=
  | Here n : within n n
  | Below n k d a cs c : In c cs -> within n c -> within n (Node k d a cs).

Lemma node_ind' (P : node -> Prop) :
  (forall k d a cs, Forall P cs -> P (Node k d a cs)) -> forall n, P n.
Proof.
  intros H. fix IH 1. intros [k d a cs]. apply H.
  induction cs as [|c cs IHc]; constructor; [apply IH|exact IHc].
Qed.

(** A link for a download: an [a] element with a marked address, or with a title that
    says so. *)
Definition link_marked (attrs : list (bytes * bytes)) (l : bytes) : Prop :=
  In (word "href", l) attrs /\
  ((exists p q, l = p ++ word "BIN_DT" ++ q) \/ (exists p q, l = p ++ word "BIN_ST" ++ q) \/
   (exists title p q, In (word "title", title) attrs /\ title = p ++ word "Download certificate file" ++ q)).

Lemma has_prefix_iff p : forall s, has_prefix p s = true <-> exists q, s = p ++ q.
Proof.
  induction p as [|a p IH]; intros s; cbn [has_prefix].
  - split; [intros _; now exists s|auto].
  - destruct s as [|b s]; [split; [discriminate|intros (q & Q); discriminate]|].
    rewrite andb_true_iff, Z.eqb_eq, IH. split.
    + intros [-> (q & ->)]. now exists q.
    + intros (q & Q). cbn in Q. injection Q as -> ->. split; eauto.
Qed.

Lemma contains_iff p s : contains p s = true <-> exists a b, s = a ++ p ++ b.
Proof.
  induction s as [|x s IH]; cbn [contains]; rewrite orb_true_iff, has_prefix_iff.
  - split.
    + intros [(q & Q)|]; [|discriminate]. exists [], q. exact Q.
    + intros (a & b & Q). destruct a; [left; now exists b|discriminate].
  - rewrite IH. split.
    + intros [(q & Q)|(a & b & ->)]; [exists [], q; exact Q|]. now exists (x :: a), b.
    + intros (a & b & Q). destruct a as [|y a]; [left; now exists b|]. right. injection Q as -> ->. eauto.
Qed.

Lemma link_of_attrs_marked all rest l : incl rest all -> link_of_attrs all rest = Some l -> link_marked all l.
Proof.
  induction rest as [|[key v] t IH]; intros I H; cbn [link_of_attrs] in H; [discriminate H|].
  assert (It : incl t all) by (intros x Hx; apply I; now right).
  destruct (eqb_bytes key s_href && _) eqn:E1.
  - injection H as <-. rewrite andb_true_iff, orb_true_iff, !contains_iff in E1. destruct E1 as [K C].
    apply eqb_bytes_iff in K. subst key. split; [apply I; now left|]. tauto.
  - destruct (eqb_bytes key s_title && _) eqn:E2; [|now apply IH].
    rewrite andb_true_iff, contains_iff in E2. destruct E2 as [K (p & q & C)]. apply eqb_bytes_iff in K. subst key.
    destruct (find _ all) as [[k w]|] eqn:Fd; [|now apply IH]. injection H as <-.
    apply find_some in Fd as [Fi Fk]. cbn [fst] in Fk. apply eqb_bytes_iff in Fk. subst k.
    split; [exact Fi|]. right. right. exists v, p, q. split; [apply I; now left|exact C].
Qed.

Definition first_link : list node -> bytes :=
  fix first (l : list node) : bytes :=
    match l with
    | [] => []
    | c :: t => match download_link c with [] => first t | x => x end
    end.

Lemma first_link_in l : first_link l <> [] -> exists c, In c l /\ download_link c = first_link l.
Proof.
  induction l as [|c l IH]; intros N; cbn [first_link] in *; [now contradiction N|].
  destruct (download_link c) as [|h t] eqn:E.
  - destruct (IH N) as (c' & I & Q). exists c'. split; [now right|exact Q].
  - exists c. split; [now left|exact E].
Qed.

Lemma download_link_marked n : download_link n <> [] ->
  exists attrs cs, within (Node KElement s_a attrs cs) n /\ link_marked attrs (download_link n).
Proof.
  induction n as [k d a cs IH] using node_ind'. intros N.
  assert (B : download_link (Node k d a cs) = first_link cs -> exists attrs cs', within (Node KElement s_a attrs cs') (Node k d a cs) /\
    link_marked attrs (download_link (Node k d a cs))).
  { intros Q. rewrite Q in N |- *. destruct (first_link_in cs N) as (c & I & Qc). rewrite Forall_forall in IH.
    rewrite <- Qc in N |- *. destruct (IH c I N) as (at' & cs' & W & M). exists at', cs'. split; [|exact M]. now apply Below with c. }
  cbn [download_link] in *. fold first_link in *.
  destruct k; try (apply B; reflexivity).
  destruct (eqb_bytes d s_a) eqn:Ed; [|apply B; reflexivity].
  destruct (link_of_attrs a a) as [v|] eqn:L; [|apply B; reflexivity].
  apply eqb_bytes_iff in Ed. subst d. exists a, cs. split; [constructor|].
  apply link_of_attrs_marked with (rest := a); [apply incl_refl|exact L].
Qed.

Lemma row_link_cell cells : row_link cells <> [] -> exists c, In c cells /\ download_link c = row_link cells.
Proof.
  unfold row_link. induction cells as [|c l IH] using rev_ind; intros N; [now contradiction N|].
  rewrite fold_left_app in *. cbn [fold_left] in *. destruct (download_link c) as [|h t] eqn:E.
  - destruct (IH N) as (c' & I & Q). exists c'. split; [apply in_or_app; now left|exact Q].
  - exists c. split; [apply in_or_app; right; now left|exact E].
Qed.

Definition country_cell (tx : text) (t : bytes) : bool :=
  negb (is_date_string tx t) && (2 <? length t)%nat && negb (contains (word "Download") t) && negb (contains (word "certificate") (to_lower tx t)).

(** Of the cells of a row, the first that can be a country is the country, and the last
    that looks like a date is the date. *)
Lemma read_cells tx l : fold_left (read_cell tx) l ([], []) =
  (hd [] (filter (country_cell tx) l), last (map (parse_date_string tx) (filter (is_date_string tx) l)) []).
Proof.
  induction l as [|t l IH] using rev_ind; [reflexivity|].
  rewrite fold_left_app, IH. cbn [fold_left]. unfold read_cell. rewrite !filter_app. cbn [filter].
  assert (C0 : (length (hd [] (filter (country_cell tx) l)) =? 0)%nat = true -> filter (country_cell tx) l = []).
  { intros E. destruct (filter (country_cell tx) l) as [|h r] eqn:Fl; [reflexivity|].
    assert (I : In h (filter (country_cell tx) l)) by (rewrite Fl; now left). apply filter_In in I as [_ I]. unfold country_cell in I.
    cbn [hd] in E. apply Nat.eqb_eq in E. rewrite E in I. cbn in I. now rewrite andb_false_r in I. }
  set (fc := filter (country_cell tx) l) in *. unfold country_cell.
  change (word "Download") with s_download. change (word "certificate") with s_certificate.
  destruct (is_date_string tx t) eqn:D; cbn [negb andb].
  - rewrite app_nil_r, map_app. cbn [map]. now rewrite last_last.
  - rewrite (app_nil_r (filter (is_date_string tx) l)).
    destruct (Nat.ltb_spec 2 (length t)) as [L2|L2]; cbn [andb].
    + replace (length t =? 0)%nat with false by (symmetry; apply Nat.eqb_neq; lia). cbn [negb andb].
      destruct (contains s_download t); cbn [negb andb]; [now rewrite app_nil_r|].
      destruct (contains s_certificate (to_lower tx t)); cbn [negb andb]; rewrite ?andb_false_r, ?andb_true_r; [now rewrite app_nil_r|].
      destruct (length (hd [] fc) =? 0)%nat eqn:E.
      * rewrite (C0 eq_refl). reflexivity.
      * destruct fc as [|h r]; [discriminate E|]. reflexivity.
    + rewrite !andb_false_r. cbn [andb]. now rewrite app_nil_r.
Qed.

Definition td_or_th (n : node) : bool :=
  match n with Node KElement d _ _ => eqb_bytes d (word "td") || eqb_bytes d (word "th") | _ => false end.

(** Every certificate the tool asks for comes from a row of the table of at least three
    cells, in one of which is a marked link, which follows the address of the site; the
    country is the first cell that can be one, the date the last one that looks like one. *)
Theorem C101_rows :
  forall tx base page m,
  In m (parse_table tx base page) <->
  exists attrs cs, within (Node KElement (word "tr") attrs cs) page /\
    let cells := filter td_or_th cs in
    let texts := map (fun c => trim_space tx (cell_text c)) cells in
    let link := row_link cells in
    link <> [] /\ (3 <= length cells)%nat /\
    me_url m = base ++ [47] ++ link /\ me_name m = certificate_name link /\
    me_country m = hd [] (filter (country_cell tx) texts) /\
    me_expires m = last (map (parse_date_string tx) (filter (is_date_string tx) texts)) [].
Proof.
  intros tx base page m. change (word "tr") with s_tr. change td_or_th with is_cell.
  assert (R : forall k d attrs cs, parse_row tx base (Node k d attrs cs) = Some m <->
    let cells := filter is_cell cs in
    let texts := map (fun c => trim_space tx (cell_text c)) cells in
    let link := row_link cells in
    link <> [] /\ (3 <= length cells)%nat /\
    me_url m = base ++ [47] ++ link /\ me_name m = certificate_name link /\
    me_country m = hd [] (filter (country_cell tx) texts) /\
    me_expires m = last (map (parse_date_string tx) (filter (is_date_string tx) texts)) []).
  { intros k d attrs cs. unfold parse_row. cbv zeta. rewrite map_length, read_cells.
    set (link := row_link (filter is_cell cs)). set (n := length (filter is_cell cs)).
    destruct (Nat.eqb_spec (length link) 0) as [L|L]; cbn [orb].
    { split; [discriminate|]. intros (N & _). destruct link; [now contradiction N|discriminate L]. }
    destruct (Nat.ltb_spec n 3) as [T|T].
    { split; [discriminate|]. intros (_ & N & _). lia. }
    split.
    - intros Q. injection Q as <-. cbn. split; [intros Z0; rewrite Z0 in L; now apply L|]. repeat split; auto.
    - intros (_ & _ & Q1 & Q2 & Q3 & Q4). destruct m. cbn in *. now subst. }
  induction page as [k d a cs IH] using node_ind'. cbn [parse_table]. rewrite in_app_iff, in_flat_map. split.
  - intros [I|(c & Ic & I)].
    + destruct k; try destruct I. destruct (eqb_bytes d s_tr) eqn:E; [|destruct I]. apply eqb_bytes_iff in E. subst d.
      destruct (parse_row tx base (Node KElement s_tr a cs)) as [m'|] eqn:P; [|destruct I]. destruct I as [->|[]].
      exists a, cs. split; [constructor|]. now apply (R KElement s_tr a cs).
    + rewrite Forall_forall in IH. apply (IH c Ic) in I as (at' & cs' & W & I). exists at', cs'. split; [|exact I]. now apply Below with c.
  - intros (at' & cs' & W & I). inversion W as [|? ? ? ? ? c Ic Wc]; subst.
    + left. rewrite eqb_bytes_refl. rewrite (proj2 (R KElement s_tr a cs) I). now left.
    + right. exists c. split; [exact Ic|]. rewrite Forall_forall in IH. apply (IH c Ic). eauto.
Qed.

(** A cell with a marked link. *)
Definition linked (c : node) (l : bytes) : Prop :=
  exists attrs cs, within (Node KElement (word "a") attrs cs) c /\ link_marked attrs l.

Lemma link_of_attrs_some all : forall rest l, incl rest all -> In (s_href, l) all ->
  (In (s_href, l) rest /\ (contains s_bin_dt l = true \/ contains s_bin_st l = true)) \/
  (exists t, In (s_title, t) rest /\ contains s_download_file t = true) ->
  exists v, link_of_attrs all rest = Some v.
Proof.
  induction rest as [|[key v] t IH]; intros l I Il H; [destruct H as [[[] _]|(t & [] & _)]|].
  cbn [link_of_attrs]. assert (It : incl t all) by (intros x Hx; apply I; now right).
  destruct (eqb_bytes key s_href && _) eqn:E1; [now exists v|].
  destruct (eqb_bytes key s_title && contains s_download_file v) eqn:E2.
  - destruct (find _ all) as [[k w]|] eqn:Fd; [now exists w|].
    exfalso. apply (find_none _ _ Fd) in Il. cbn [fst] in Il. now rewrite eqb_bytes_refl in Il.
  - apply (IH l It Il). destruct H as [[[Q|H] C]|(u & [Q|H] & C)].
    + exfalso. injection Q as -> ->. rewrite eqb_bytes_refl in E1. cbn [andb] in E1. apply orb_false_iff in E1 as [E1 E1'].
      destruct C; congruence.
    + left. auto.
    + exfalso. injection Q as -> ->. rewrite eqb_bytes_refl, C in E2. discriminate E2.
    + right. eauto.
Qed.

(** No link of the document is empty. *)
Definition no_empty_link (c : node) : Prop :=
  forall attrs cs, within (Node KElement (word "a") attrs cs) c -> ~ In (word "href", []) attrs.

Lemma first_link_some l c : In c l -> download_link c <> [] -> first_link l <> [].
Proof.
  induction l as [|x l IH]; intros I N; [destruct I|]. cbn [first_link]. destruct (download_link x) as [|h t] eqn:E; [|discriminate].
  destruct I as [<-|I]; [congruence|now apply IH].
Qed.

Lemma download_link_found n : no_empty_link n -> forall l, linked n l -> download_link n <> [].
Proof.
  induction n as [k d a cs IH] using node_ind'. intros NE l (at' & cs' & W & M).
  assert (B : forall c, In c cs -> within (Node KElement s_a at' cs') c -> first_link cs <> []).
  { intros c I Wc. apply (first_link_some cs c I). rewrite Forall_forall in IH. apply (IH c I) with (l := l).
    - intros a1 c1 W1. apply (NE a1 c1). now apply Below with c.
    - now exists at', cs'. }
  cbn [download_link]. fold first_link.
  inversion W as [? Q|? ? ? ? ? c Ic Wc]; subst.
  - rewrite eqb_bytes_refl. destruct M as [Mi M].
    destruct (link_of_attrs_some a a l (incl_refl a) Mi) as [v E].
    { rewrite !contains_iff. destruct M as [M|[M|(t & p & q & It & M)]]; [left; split; auto|left; split; auto|right].
      exists t. split; [exact It|]. apply contains_iff. now exists p, q. }
    rewrite E. intros ->. apply link_of_attrs_marked in E as [E _]; [|apply incl_refl].
    exact (NE a cs (Here _) E).
  - destruct k; try exact (B c Ic Wc). destruct (eqb_bytes d s_a) eqn:Ed; [|exact (B c Ic Wc)].
    apply eqb_bytes_iff in Ed. subst d. destruct (link_of_attrs a a) as [v|] eqn:E; [|exact (B c Ic Wc)].
    intros ->. apply link_of_attrs_marked in E as [E _]; [|apply incl_refl]. exact (NE a cs (Here _) E).
Qed.

(** The link of a row is a marked link of its last cell with one; there is one unless
    no cell has one.  Empty links are left out. *)
Theorem C101_links :
  forall cells, Forall no_empty_link cells ->
  (row_link cells <> [] <-> exists c l, In c cells /\ linked c l) /\
  (row_link cells <> [] -> exists before c after, cells = before ++ c :: after /\ linked c (row_link cells) /\
     forall c' l, In c' after -> ~ linked c' l).
Proof.
  assert (Last : forall cells, Forall no_empty_link cells -> row_link cells <> [] ->
    exists before c after, cells = before ++ c :: after /\ linked c (row_link cells) /\ forall c' l, In c' after -> ~ linked c' l).
  { unfold row_link. induction cells as [|c l IH] using rev_ind; intros NE N; [now contradiction N|].
    apply Forall_app in NE as [NE1 NE2]. inversion NE2 as [|? ? NEc _]; subst.
    rewrite fold_left_app in *. cbn [fold_left] in *. destruct (download_link c) as [|h t] eqn:E.
    - destruct (IH NE1 N) as (b & c' & a & Q & Lk & Nn). exists b, c', (a ++ [c]). split; [rewrite Q, <- app_assoc; reflexivity|].
      split; [rewrite Q; rewrite <- Q; exact Lk|]. intros c1 l1 I1 L1. apply in_app_or in I1 as [I1|[<-|[]]]; [now apply (Nn c1 l1 I1)|].
      now apply (download_link_found c NEc l1 L1).
    - exists l, c, []. split; [reflexivity|]. split; [|intros ? ? []].
      rewrite <- E. destruct (download_link_marked c ltac:(congruence)) as (at' & cs & W & M). now exists at', cs. }
  intros cells NE. split; [split|now apply Last].
  - intros N. destruct (Last cells NE N) as (b & c & a & -> & Lk & _). exists c, (row_link (b ++ c :: a)).
    split; [apply in_or_app; right; now left|exact Lk].
  - intros (c & l & I & Lk). clear Last. unfold row_link. induction cells as [|x r IH] using rev_ind; [destruct I|].
    apply Forall_app in NE as [NE1 NE2]. inversion NE2 as [|? ? NEc _]; subst.
    rewrite fold_left_app. cbn [fold_left]. apply in_app_or in I as [I|[->|[]]].
    + destruct (download_link x); [now apply IH|discriminate].
    + pose proof (download_link_found c NEc l Lk) as F0. destruct (download_link c); [contradiction|discriminate].
Qed.

Example C101_links_apply :
  let c := cell [Node KElement (word "a") [(word "href", word "BIN_DT=x")] []] in
  no_empty_link c /\ linked c (word "BIN_DT=x") /\ row_link [c; cell []] = word "BIN_DT=x".
Proof.
  cbv zeta. split; [|split; [|reflexivity]].
  - intros at' cs W I. unfold cell in W. inversion W as [|? ? ? ? ? c Ic Wc]; subst.
    destruct Ic as [<-|[]]. inversion Wc as [|? ? ? ? ? c' Ic' _]; subst; [|destruct Ic'].
    destruct I as [I|[]]. discriminate I.
  - do 2 eexists. split; [eapply Below; [left; reflexivity|constructor]|].
    split; [left; reflexivity|]. left. now exists [], [61; 120].
Qed.

(** Names: what is behind the last "=", without "iot_doc/" and "erca_of_doc/"; without
    "=" the last element of the path. *)
Theorem C101_names :
  (forall p r, ~ In 61 r -> has_prefix (word "iot_doc/") r = false -> has_prefix (word "erca_of_doc/") r = false ->
     certificate_name (p ++ 61 :: r) = r /\
     certificate_name (p ++ 61 :: word "iot_doc/" ++ r) = r /\
     certificate_name (p ++ 61 :: word "erca_of_doc/" ++ r) = r) /\
  (forall p r, ~ In 61 (p ++ 47 :: r) -> ~ In 47 r -> r <> [] -> certificate_name (p ++ 47 :: r) = r).
Proof.
  assert (Sp : forall p r, ~ In 61 r -> exists a b, split_on 61 (p ++ 61 :: r) = a :: b /\ b <> [] /\ last (a :: b) [] = r).
  { induction p as [|x p IH]; intros r N; cbn [List.app split_on].
    - rewrite Z.eqb_refl, split_on_none by exact N. exists [], [r]. split; [reflexivity|]. split; [discriminate|reflexivity].
    - destruct (IH r N) as (a & b & E & Nb & L). rewrite E. destruct (x =? 61).
      + exists [], (a :: b). split; [reflexivity|]. split; [discriminate|]. rewrite <- L. reflexivity.
      + exists (x :: a), b. split; [reflexivity|]. split; [exact Nb|]. destruct b as [|z b]; [now contradiction Nb|]. rewrite <- L. reflexivity. }
  assert (Nm : forall p r, ~ In 61 r -> certificate_name (p ++ 61 :: r) = trim_prefix s_erca_doc (trim_prefix s_iot_doc r)).
  { intros p r N. unfold certificate_name. destruct (Sp p r N) as (a & b & E & Nb & L). rewrite E.
    destruct b as [|z b]; [now contradiction Nb|]. now rewrite L. }
  assert (Tp : forall q r, trim_prefix q (q ++ r) = r).
  { intros q r. unfold trim_prefix. replace (has_prefix q (q ++ r)) with true by (symmetry; apply has_prefix_iff; now exists r).
    induction q; [reflexivity|exact IHq]. }
  split.
  - change (word "iot_doc/") with s_iot_doc. change (word "erca_of_doc/") with s_erca_doc.
    intros p r N N1 N2. repeat split.
    + rewrite Nm by exact N. unfold trim_prefix. now rewrite N1, N2.
    + rewrite Nm. { rewrite Tp. unfold trim_prefix. now rewrite N2. }
      intros I. apply in_app_or in I as [I|I]; [|now apply N]. cbn in I. intuition discriminate.
    + rewrite Nm. { replace (trim_prefix s_iot_doc (s_erca_doc ++ r)) with (s_erca_doc ++ r) by reflexivity. apply Tp. }
      intros I. apply in_app_or in I as [I|I]; [|now apply N]. cbn in I. intuition discriminate.
  - intros p r N1 N2 N3. unfold certificate_name. rewrite split_on_none by exact N1. unfold base_name.
    destruct (p ++ 47 :: r) as [|h t] eqn:E; [destruct p; discriminate E|]. rewrite <- E. clear E N1 h t.
    assert (Sl : exists a u, split_on 47 (p ++ 47 :: r) = (a :: u) ++ [r]).
    { clear - N2. induction p as [|x p (a & u & IH)]; cbn [List.app split_on].
      - rewrite Z.eqb_refl, split_on_none by exact N2. now exists [], [].
      - rewrite IH. destruct (x =? 47); [now exists [], (a :: u)|]. now exists (x :: a), u. }
    destruct Sl as (a & u & ->). rewrite rev_app_distr. cbn [rev List.app find].
    destruct r; [now contradiction N3|]. reflexivity.
Qed.

(** An address with its own site is not recognised as such: the tool asks for it below
    the site of the table. *)
Definition absolute_link : bytes := word "https://e/BIN_DT".

Theorem C101_absolute_refuted :
  exists page m, In m (parse_table (mkText (fun s => s) (fun s => s)) (word "https://s") page) /\
    within (Node KElement (word "a") [(word "href", absolute_link)] []) page /\
    me_url m = word "https://s/https://e/BIN_DT" /\
    me_country m = word "Ruri" /\ me_expires m = shown_midnight 2030 1 1.
Proof.
  exists (Node KElement s_tr []
    [cell [Node KText [82; 117; 114; 105] [] []];
     cell [Node KText [48; 49; 47; 48; 49; 47; 50; 48; 51; 48] [] []];
     cell [Node KElement (word "a") [(word "href", absolute_link)] []]]).
  eexists. split; [vm_compute; left; reflexivity|]. split.
  { eapply Below; [right; right; left; reflexivity|]. eapply Below; [left; reflexivity|]. constructor. }
  repeat split; vm_compute; reflexivity.
Qed.
