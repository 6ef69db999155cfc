(** Properties C98 and C99: where the certificates are saved, and what the library gets
    from the index the tool writes. *)

From Coq Require Import Permutation Sorted.
From Verif Require Import Base DDScalar Asn1 Cert Verify FetchCerts P_Basic P_Scalar P_Cert Props_Cert Props_Fetch Props_FetchRun.

(** * C98: where the files go *)

Lemma split_on_none c s : ~ In c s -> split_on c s = [s].
Proof.
  induction s as [|b s IH]; intros N; [reflexivity|]. cbn. rewrite IH by (intros I; apply N; now right).
  destruct (Z.eqb_spec b c) as [->|]; [exfalso; apply N; now left|reflexivity].
Qed.

(** A name without a slash that is not ".." or "." stays in its directory. *)
Lemma path_join_plain dir name : ~ In 47 dir -> ~ In 47 name ->
  dir <> [] -> dir <> [46] -> dir <> [46; 46] -> name <> [] -> name <> [46] -> name <> [46; 46] ->
  path_join dir name = dir ++ 47 :: name.
Proof.
  intros Sd Sn D0 D1 D2 N0 N1 N2. unfold path_join. rewrite !split_on_none by assumption. cbn [List.app clean].
  assert (X : forall a b, a <> b -> eqb_bytes a b = false).
  { intros a b Hn. destruct (eqb_bytes a b) eqn:E; [|reflexivity]. now apply eqb_bytes_iff in E. }
  rewrite !X by assumption. reflexivity.
Qed.

Lemma dec_digits v : 0 <= v -> Forall (fun b => 48 <= b <= 57) (dec v) /\ dec v <> [].
Proof.
  intros H. split.
  - unfold dec. apply Forall_map. eapply Forall_impl; [|exact (proj1 (itoa_spec v H))]. intros a Ha. cbv beta in Ha |- *. lia.
  - pose proof (itoa_nonempty v H) as N. unfold dec. destruct (itoa v); [cbn in N; lia|discriminate].
Qed.

Lemma file_in dir name : ~ In 47 dir -> dir <> [] -> dir <> [46] -> dir <> [46; 46] -> ~ In 47 name ->
  path_join dir (name ++ bin_suffix) = dir ++ 47 :: name ++ bin_suffix.
Proof.
  intros Sd D0 D1 D2 Sn. apply path_join_plain; auto.
  - intros I. apply in_app_or in I as [I|I]; [now apply Sn|]. cbn in I. intuition discriminate.
  - destruct name; discriminate.
  - intros Q. apply (f_equal (@length Z)) in Q. rewrite app_length in Q. cbn in Q. lia.
  - intros Q. apply (f_equal (@length Z)) in Q. rewrite app_length in Q. cbn in Q. lia.
Qed.

Lemma not_slash l : Forall (fun b => 48 <= b <= 57) l -> ~ In 47 l.
Proof. intros F I. rewrite Forall_forall in F. specialize (F _ I). lia. Qed.

(** What a kept first-generation certificate looks like. *)
Lemma gen1_job k http n e m j : (forall u d, http u = Ok d -> bytes_ok d) -> process_gen1 k http n e m = Some j ->
  en_url (job_entry j) = me_url m /\ http (me_url m) = Ok (job_data j) /\ job_path j = en_path (job_entry j) /\
  job_path j = path_join dir_g1 (file_name (en_chr (job_entry j)) (me_name m)) /\
  exists car, extract_gen1_car (job_data j) = Ok car /\ en_car (job_entry j) = dec car /\
  ((exists c chr eov, recover_gen1 k (job_data j) n e = Ok c /\ extract_gen1_chr_eov c = Ok (chr, eov) /\ 0 <= chr /\
      en_chr (job_entry j) = dec chr /\ en_expires (job_entry j) = show_eov eov) \/
   (en_chr (job_entry j) = [] /\ en_expires (job_entry j) = me_expires m)).
Proof.
  intros HB P. unfold process_gen1, download in P.
  destruct (http (me_url m)) as [d0| |] eqn:Hd; cbn [bind is_some_ok] in P; try discriminate P.
  destruct (guard _) as [u| |] in P; cbn [bind is_some_ok] in P; try discriminate P.
  destruct (guard _) as [u'| |] in P; cbn [bind is_some_ok] in P; try discriminate P.
  destruct (extract_gen1_car d0) as [car| |] eqn:Ec; cbn [bind is_some_ok] in P; try discriminate P.
  destruct (recover_gen1 k d0 n e) as [c| |] eqn:Rc; cbn [bind is_some_ok] in P;
    [destruct (extract_gen1_chr_eov c) as [[chr eov]| |] eqn:Ex; cbn [is_some_ok] in P|..];
    injection P as <-; cbn [job_entry job_path job_data en_url en_path en_chr en_car en_expires];
    (split; [reflexivity|]); (split; [reflexivity|]); (split; [reflexivity|]); (split; [reflexivity|]);
    exists car; (split; [exact Ec|]); (split; [reflexivity|]); try (right; split; reflexivity).
  left. exists c, chr, eov. split; [exact Rc|]. split; [exact Ex|]. split; [|split; reflexivity].
  pose proof (HB _ _ Hd) as B. pose proof (recover_length _ _ _ _ _ Rc) as [_ Lc].
  assert (Bc : bytes_ok c).
  { unfold recover_gen1 in Rc. inv_bind Rc. inv_bind Rc. inv_bind Rc. inv_bind Rc. apply Ok_inj in Rc. subst c.
    apply bytes_ok_app. split; [|now apply bytes_ok_sub]. apply bytes_ok_sub. apply to_be_ok. }
  unfold extract_gen1_chr_eov in Ex. inv_bind Ex. apply Ok_inj in Ex. injection Ex as <- _.
  apply be_range. now apply bytes_ok_sub.
Qed.

Lemma gen2_job http m j : process_gen2 http m = Some j ->
  en_url (job_entry j) = me_url m /\ http (me_url m) = Ok (job_data j) /\ job_path j = en_path (job_entry j) /\
  job_path j = path_join dir_g2 (file_name (en_chr (job_entry j)) (me_name m)) /\
  exists car, extract_gen2_car (job_data j) = Ok car /\ en_car (job_entry j) = dec car /\
  ((exists chr, extract_gen2_chr (job_data j) = Ok chr /\ en_chr (job_entry j) = dec chr) \/
   en_chr (job_entry j) = []).
Proof.
  intros P. unfold process_gen2, download in P.
  destruct (http (me_url m)) as [d0| |] eqn:Hd; cbn [bind is_some_ok] in P; try discriminate P.
  do 3 (destruct (guard _) as [?| |] in P; cbn [bind is_some_ok] in P; try discriminate P).
  destruct (extract_gen2_car d0) as [car| |] eqn:Ec; cbn [bind is_some_ok] in P; try discriminate P.
  destruct (extract_gen2_chr d0) as [chr| |] eqn:Ex; cbn [is_some_ok] in P;
    injection P as <-; cbn [job_entry job_path job_data en_url en_path en_chr en_car];
    (split; [reflexivity|]); (split; [reflexivity|]); (split; [reflexivity|]); (split; [reflexivity|]);
    exists car; (split; [exact Ec|]); (split; [reflexivity|]); eauto.
Qed.

Lemma raw_bytes d v r : bytes_ok d -> asn1_raw d = Ok (v, r) -> bytes_ok (rv_bytes v) /\ bytes_ok r.
Proof.
  intros B E. apply raw_iff in E as [V ->]; [|exact B]. apply bytes_ok_app in B as [B1 B2].
  split; [now apply element_ok|exact B2].
Qed.

Lemma skip_bytes d r : bytes_ok d -> skip_raw d = Ok r -> bytes_ok r.
Proof. unfold skip_raw. intros B E. inv_bind E. destruct a as [v q]. apply Ok_inj in E. subst q. now apply (raw_bytes d v r). Qed.

Lemma gen2_chr_nonneg d chr : bytes_ok d -> extract_gen2_chr d = Ok chr -> 0 <= chr.
Proof.
  intros B E. unfold extract_gen2_chr in E.
  destruct (asn1_raw d) as [[o x]| |] eqn:E0; cbn [bind] in E; try discriminate E. apply (raw_bytes _ _ _ B) in E0 as [B0 _].
  destruct (asn1_raw (rv_bytes o)) as [[b y]| |] eqn:E1; cbn [bind] in E; try discriminate E. apply (raw_bytes _ _ _ B0) in E1 as [B1 _].
  destruct (skip_raw (rv_bytes b)) as [r1| |] eqn:Q1; cbn [bind] in E; try discriminate E. apply (skip_bytes _ _ B1) in Q1.
  destruct (skip_raw r1) as [r2| |] eqn:Q2; cbn [bind] in E; try discriminate E. apply (skip_bytes _ _ Q1) in Q2.
  destruct (skip_raw r2) as [r3| |] eqn:Q3; cbn [bind] in E; try discriminate E. apply (skip_bytes _ _ Q2) in Q3.
  destruct (skip_raw r3) as [r4| |] eqn:Q4; cbn [bind] in E; try discriminate E. apply (skip_bytes _ _ Q3) in Q4.
  unfold raw_uint64 in E. destruct (asn1_raw r4) as [[v z]| |] eqn:E2; cbn [bind] in E; try discriminate E.
  apply (raw_bytes _ _ _ Q4) in E2 as [B2 _]. inv_bind E. apply Ok_inj in E. subst chr. now apply be_range.
Qed.

(** A certificate whose holder is known is saved as g1/<reference>.bin or
    g2/<reference>.bin, the reference being in decimal.  One whose holder is not known is
    saved in the directory if its name on the web site has no slash.  Missing: names with
    a slash, which [C98_names] has and which can lead out of the directory. *)
Theorem C98_location_partial :
  forall k http n e m j, (forall u d, http u = Ok d -> bytes_ok d) ->
  let dir := fun x => [103; 49] = x /\ process_gen1 k http n e m = Some j \/
                      [103; 50] = x /\ process_gen2 http m = Some j in
  forall x, dir x ->
  en_path (job_entry j) = job_path j /\
  let chr := en_chr (job_entry j) in
  (chr <> [] -> Forall (fun b => 48 <= b <= 57) chr /\ job_path j = x ++ [47] ++ chr ++ [46; 98; 105; 110]) /\
  (chr = [] -> ~ In 47 (me_name m) -> job_path j = x ++ [47] ++ me_name m ++ [46; 98; 105; 110]).
Proof.
  intros k http n e m j HB dir x D. change [46; 98; 105; 110] with bin_suffix.
  assert (X : ~ In 47 x /\ x <> [] /\ x <> [46] /\ x <> [46; 46]).
  { destruct D as [[<- _]|[<- _]]; repeat split; try discriminate; cbn; intuition discriminate. }
  destruct X as (X1 & X2 & X3 & X4).
  assert (K : en_path (job_entry j) = job_path j /\
              job_path j = path_join x (file_name (en_chr (job_entry j)) (me_name m)) /\
              (en_chr (job_entry j) <> [] -> exists v, 0 <= v /\ en_chr (job_entry j) = dec v)).
  { destruct D as [[<- P]|[<- P]].
    - apply gen1_job in P as (_ & _ & P1 & P2 & car & _ & _ & O); [|exact HB].
      split; [now symmetry|]. split; [exact P2|]. intros N. destruct O as [(c & v & eov & _ & _ & V & Q & _)|[Q _]]; [eauto|contradiction].
    - apply gen2_job in P as (_ & Hd & P1 & P2 & car & _ & _ & O).
      split; [now symmetry|]. split; [exact P2|]. intros N. destruct O as [(v & V & Q)|Q]; [|contradiction].
      exists v. split; [|exact Q]. apply (gen2_chr_nonneg _ _ (HB _ _ Hd) V). }
  destruct K as (K1 & K2 & K3). split; [exact K1|]. cbv zeta. split.
  - intros N. destruct (K3 N) as (v & V & Q). pose proof (dec_digits v V) as [F _].
    split; [now rewrite Q|]. rewrite K2. unfold file_name.
    destruct (en_chr (job_entry j)) as [|h t] eqn:Ec; [now contradiction N|].
    cbn [List.app]. change (h :: t ++ bin_suffix) with ((h :: t) ++ bin_suffix). apply file_in; auto.
    rewrite Q. now apply not_slash.
  - intros N Sl. rewrite K2, N. cbn [file_name]. now apply file_in.
Qed.

(** ** Names with slashes *)

(** Where a path leads: so many directories up, and then down into those listed, the last
    one first. *)
Definition walk_step (at_ : nat * list bytes) (p : bytes) : nat * list bytes :=
  if list_eq_dec Z.eq_dec p [] then at_
  else if list_eq_dec Z.eq_dec p [46] then at_
  else if list_eq_dec Z.eq_dec p [46; 46] then
    match at_ with
    | (u, []) => (S u, [])
    | (u, _ :: s) => (u, s)
    end
  else (fst at_, p :: snd at_).

Lemma eqb_bytes_dec a b : eqb_bytes a b = if list_eq_dec Z.eq_dec a b then true else false.
Proof.
  destruct (list_eq_dec Z.eq_dec a b) as [->|N]; [now apply eqb_bytes_iff|].
  destruct (eqb_bytes a b) eqn:E; [|reflexivity]. now apply eqb_bytes_iff in E.
Qed.

Lemma clean_walk parts : forall u s, Forall (fun p => p <> [46; 46]) s ->
  let '(u', s') := fold_left walk_step parts (u, s) in
  clean (s ++ repeat [46; 46] u) parts = repeat [46; 46] u' ++ rev s'.
Proof.
  induction parts as [|p parts IH]; intros u s N.
  - cbn [fold_left clean]. rewrite rev_app_distr. f_equal.
    clear. induction u as [|u IH]; [reflexivity|]. cbn [repeat rev]. rewrite IH. symmetry. apply repeat_cons.
  - cbn [fold_left clean]. unfold walk_step at 2. rewrite !eqb_bytes_dec.
    destruct (list_eq_dec Z.eq_dec p []) as [->|N0]; [exact (IH u s N)|].
    destruct (list_eq_dec Z.eq_dec p [46]) as [->|N1]; [exact (IH u s N)|]. cbn [orb].
    destruct (list_eq_dec Z.eq_dec p [46; 46]) as [->|N2].
    + destruct s as [|x s].
      * specialize (IH (S u) [] N). cbn [List.app] in IH |- *. destruct u as [|u]; [exact IH|].
        cbn [repeat] in IH |- *. rewrite eqb_bytes_dec.
        destruct (list_eq_dec Z.eq_dec [46; 46] [46; 46]) as [_|Q]; [exact IH|now contradiction Q].
      * apply Forall_cons_iff in N as [Nx N]. cbn [List.app]. rewrite eqb_bytes_dec.
        destruct (list_eq_dec Z.eq_dec x [46; 46]) as [Q|_]; [contradiction|]. exact (IH u s N).
    + cbn [fst snd]. apply (IH u (p :: s)). now constructor.
Qed.

Lemma split_on_slashed segs : segs <> [] -> Forall (fun s => ~ In 47 s) segs ->
  forall name, [47] ++ name = flat_map (fun s => 47 :: s) segs -> split_on 47 name = segs.
Proof.
  assert (K : forall (a r : bytes) more, ~ In 47 a -> split_on 47 r = more -> split_on 47 (a ++ 47 :: r) = a :: more).
  { intros a r more N E. induction a as [|b a IH]; cbn [List.app split_on]; [now rewrite E|].
    rewrite IH by (intros I; apply N; now right). destruct (Z.eqb_spec b 47) as [->|]; [exfalso; apply N; now left|reflexivity]. }
  induction segs as [|a segs IH]; intros Ne N name E; [now contradiction Ne|].
  apply Forall_cons_iff in N as [Na N]. cbn [flat_map List.app] in E. injection E as E. subst name.
  destruct segs as [|b segs].
  - cbn [flat_map]. rewrite app_nil_r. now apply split_on_none.
  - cbn [flat_map List.app]. apply K; [exact Na|]. apply IH; [discriminate|exact N|reflexivity].
Qed.

Lemma join_slash_flat l : l <> [] -> [47] ++ join_slash l = flat_map (fun s => 47 :: s) l.
Proof.
  induction l as [|a l IH]; intros N; [now contradiction N|]. destruct l as [|b l].
  - cbn. now rewrite app_nil_r.
  - cbn [join_slash flat_map List.app]. f_equal. f_equal. specialize (IH ltac:(discriminate)).
    cbn [List.app] in IH. cbn [flat_map List.app] in IH. rewrite <- IH. reflexivity.
Qed.

(** Any name, cut at its slashes together with the ending: the file is where the walk from
    the output directory through [x] along the pieces leads. *)
Theorem C98_names :
  forall k http n e m j x, (forall u d, http u = Ok d -> bytes_ok d) ->
  [103; 49] = x /\ process_gen1 k http n e m = Some j \/ [103; 50] = x /\ process_gen2 http m = Some j ->
  en_chr (job_entry j) = [] ->
  forall pieces, Forall (fun s => ~ In 47 s) pieces ->
  [47] ++ me_name m ++ [46; 98; 105; 110] = flat_map (fun s => 47 :: s) pieces ->
  let up := fst (fold_left walk_step (x :: pieces) (0%nat, [])) in
  let down := rev (snd (fold_left walk_step (x :: pieces) (0%nat, []))) in
  [47] ++ job_path j = flat_map (fun s => 47 :: s) (repeat [46; 46] up ++ down) /\
  (Forall (fun p => p <> [46; 46]) pieces ->
     up = 0%nat /\ down = x :: filter (fun p => if in_dec (list_eq_dec Z.eq_dec) p [[]; [46]] then false else true) pieces).
Proof.
  intros k http n e m j x HB D C pieces Np E up down.
  assert (X : ~ In 47 x /\ x <> [] /\ x <> [46] /\ x <> [46; 46]).
  { destruct D as [[<- _]|[<- _]]; repeat split; try discriminate; cbn; intuition discriminate. }
  destruct X as (X1 & X2 & X3 & X4).
  assert (K : job_path j = path_join x (me_name m ++ bin_suffix)).
  { change (me_name m ++ bin_suffix) with (file_name [] (me_name m)). rewrite <- C.
    destruct D as [[<- P]|[<- P]].
    - now apply gen1_job in P as (_ & _ & _ & P2 & _); [|exact HB].
    - now apply gen2_job in P as (_ & _ & _ & P2 & _). }
  assert (Ne : pieces <> []).
  { intros ->. discriminate E. }
  change [46; 98; 105; 110] with bin_suffix in E.
  pose proof (split_on_slashed pieces Ne Np _ E) as Sp.
  assert (W : clean [] (x :: pieces) = repeat [46; 46] up ++ down).
  { pose proof (clean_walk (x :: pieces) 0 [] (Forall_nil _)) as Cw. unfold up, down.
    destruct (fold_left walk_step (x :: pieces) (0%nat, [])) as [u s]. exact Cw. }
  split.
  - rewrite K. unfold path_join. rewrite Sp, (split_on_none 47 x X1). cbn [List.app]. rewrite W.
    assert (Last : repeat [46; 46] up ++ down <> []).
    { destruct (exists_last Ne) as (init & z & ->).
      assert (Z0 : z <> [] /\ z <> [46] /\ z <> [46; 46]).
      { assert (Q : exists y, z = y ++ bin_suffix \/ exists w, bin_suffix = w ++ 47 :: z).
        { rewrite flat_map_app in E. cbn [flat_map] in E. rewrite app_nil_r in E.
          assert (E' : ([47] ++ me_name m) ++ bin_suffix = (flat_map (fun s => 47 :: s) init ++ [47]) ++ z) by (rewrite <- !app_assoc; exact E).
          destruct (app_eq_app _ _ _ _ E') as (l & [(A1 & A2)|(A1 & A2)]).
          - exists l. left. exact A2.
          - destruct l as [|b l] using rev_ind; [exists []; left; now rewrite A2|]. exists []. right. exists l.
            rewrite app_assoc in A1. apply app_inj_tail in A1 as [_ <-]. rewrite A2, <- app_assoc. reflexivity. }
        destruct Q as (y & [->|(w & Q)]).
        - repeat split; intros Q; apply (f_equal (@length Z)) in Q; rewrite app_length in Q; cbn in Q; lia.
        - exfalso. assert (I : In 47 bin_suffix) by (rewrite Q; apply in_or_app; right; now left).
          cbn in I. intuition discriminate. }
      unfold down, up. rewrite app_comm_cons, fold_left_app. remember (fold_left walk_step (x :: init) (0%nat, [])) as w eqn:Ew. clear Ew.
      cbn [fold_left]. unfold walk_step.
      destruct Z0 as (Z0 & Z1 & Z2).
      destruct (list_eq_dec Z.eq_dec z []) as [|_]; [contradiction|].
      destruct (list_eq_dec Z.eq_dec z [46]) as [|_]; [contradiction|].
      destruct (list_eq_dec Z.eq_dec z [46; 46]) as [|_]; [contradiction|].
      cbn [fst snd rev]. intros Q. apply app_eq_nil in Q as [_ Q]. now apply app_eq_nil in Q as [_ Q]. }
    destruct (repeat [46; 46] up ++ down) as [|a l] eqn:El; [now contradiction Last|].
    apply join_slash_flat. discriminate.
  - intros Nd.
    assert (G : forall ps u s, Forall (fun p => p <> [46; 46]) ps ->
      fold_left walk_step ps (u, s) = (u, rev (filter (fun p => if in_dec (list_eq_dec Z.eq_dec) p [[]; [46]] then false else true) ps) ++ s)).
    { clear. induction ps as [|p ps IH]; intros u s N; [reflexivity|]. apply Forall_cons_iff in N as [Nx N].
      cbn [fold_left filter]. unfold walk_step at 2.
      destruct (in_dec (list_eq_dec Z.eq_dec) p [[]; [46]]) as [I|I].
      - destruct I as [<-|[<-|[]]]; [destruct (list_eq_dec Z.eq_dec [] []) as [_|Q]; [now apply IH|now contradiction Q]|].
        destruct (list_eq_dec Z.eq_dec [46] []) as [Q|_]; [discriminate Q|].
        destruct (list_eq_dec Z.eq_dec [46] [46]) as [_|Q]; [now apply IH|now contradiction Q].
      - destruct (list_eq_dec Z.eq_dec p []) as [->|_]; [exfalso; apply I; now left|].
        destruct (list_eq_dec Z.eq_dec p [46]) as [->|_]; [exfalso; apply I; right; now left|].
        destruct (list_eq_dec Z.eq_dec p [46; 46]) as [Q|_]; [contradiction|].
        cbn [fst snd rev]. rewrite IH by exact N. now rewrite <- app_assoc. }
    unfold up, down. cbn [fold_left]. unfold walk_step at 2 4.
    destruct (list_eq_dec Z.eq_dec x []) as [|_]; [contradiction|].
    destruct (list_eq_dec Z.eq_dec x [46]) as [|_]; [contradiction|].
    destruct (list_eq_dec Z.eq_dec x [46; 46]) as [|_]; [contradiction|].
    cbn [fst snd]. rewrite G by exact Nd. cbn [fst snd]. split; [reflexivity|].
    rewrite rev_app_distr, rev_involutive. reflexivity.
Qed.

(** The name comes from the web site: a link ending in "=../../x" makes the tool write
    outside of its output directory. *)
Definition evil_link : bytes := s_bin_dt ++ [61; 46; 46; 47; 46; 46; 47; 120].
Definition cell (l : list node) : node := Node KElement s_td [] l.
Definition evil_row : node :=
  Node KElement s_tr []
    [cell [Node KText [82; 117; 114; 105] [] []];
     cell [Node KText [48; 49; 47; 48; 49; 47; 50; 48; 51; 48] [] []];
     cell [Node KElement s_a [(s_href, evil_link)] []]].

Theorem C98_location_refuted :
  exists k http n e page j m,
    (forall u d, http u = Ok d -> bytes_ok d) /\
    In m (parse_table (mkText (fun s => s) (fun s => s)) [] page) /\
    process_gen1 k http n e m = Some j /\
    job_path j = [46; 46; 47; 120; 46; 98; 105; 110] (* ../x.bin *).
Proof.
  exists plain_hash, (fun _ => Ok (repeat 0 194)), 5, 1, evil_row. do 2 eexists.
  split.
  { intros u d Q. apply Ok_inj in Q. subst d. apply Forall_forall. intros b I. apply repeat_spec in I. subst b. unfold byte_ok. lia. }
  split; [left; vm_compute; reflexivity|]. split; vm_compute; reflexivity.
Qed.

(** The same job seen by [C98_names]: one up from the output directory; and a name with
    slashes that stays below g1. *)
Example C98_names_applies :
  (exists m j, process_gen1 plain_hash (fun _ => Ok (repeat 0 194)) 5 1 m = Some j /\ en_chr (job_entry j) = [] /\
     [47] ++ me_name m ++ [46; 98; 105; 110] = flat_map (fun s => 47 :: s) [[46; 46]; [46; 46]; [120; 46; 98; 105; 110]] /\
     fold_left walk_step ([103; 49] :: [[46; 46]; [46; 46]; [120; 46; 98; 105; 110]]) (0%nat, []) = (1%nat, [[120; 46; 98; 105; 110]])) /\
  (exists m j, process_gen1 plain_hash (fun _ => Ok (repeat 0 194)) 5 1 m = Some j /\ en_chr (job_entry j) = [] /\
     [47] ++ me_name m ++ [46; 98; 105; 110] = flat_map (fun s => 47 :: s) [[97]; []; [46]; [98; 46; 98; 105; 110]] /\
     job_path j = [103; 49; 47; 97; 47; 98; 46; 98; 105; 110]).
Proof.
  split.
  - exists (mkMeta [46; 46; 47; 46; 46; 47; 120] [] [] []). eexists. vm_compute. auto.
  - exists (mkMeta [97; 47; 47; 46; 47; 98] [] [] []). eexists. vm_compute. auto.
Qed.

(** * C99: the library finds what the tool saved *)

Lemma url_of_entries s r :
  (exists e, In e s /\ en_chr e = r /\ url_of (index_entries s) r = Some (en_url e)) \/
  ((forall e, In e s -> en_chr e <> r) /\ url_of (index_entries s) r = None).
Proof.
  unfold url_of, index_entries. induction s as [|a s IH].
  - right. split; [intros e []|reflexivity].
  - cbn [map find fst]. destruct (list_eq_dec Z.eq_dec (en_chr a) r) as [E|E].
    + left. exists a. split; [now left|auto].
    + destruct IH as [(e & I & C & U)|(N & U)].
      * left. exists e. split; [now right|auto].
      * right. split; [|exact U]. intros e [<-|I]; auto.
Qed.

(** The index as the tool writes it: the workers in any order, then sorted. *)
Definition written (instant : bytes -> option Z) (js : list job) (s : list entry) : Prop :=
  exists start schedule, st_entries start = [] /\ interleaving (workers js) schedule /\
    sorted_result instant (st_entries (run start schedule)) s.

Lemma written_entries instant js s : written instant js s -> Permutation s (map job_entry js).
Proof.
  intros (st & l & S0 & I & [P _]). apply C96_entries with (start := st) in I. rewrite S0 in I. cbn [List.app] in I.
  exact (Permutation_trans (Permutation_sym P) I).
Qed.

(** Asked for a holder in the index, the client of the library downloads and reads a
    certificate the tool saved for that holder, and verifying it under the root the tool
    used gives that holder.  Asked for any other reference it fails. *)
Theorem C99_first_generation :
  forall k http n e js instant s others,
  (forall u d, http u = Ok d -> bytes_ok d) ->
  (forall j, In j js -> exists m, process_gen1 k http n e m = Some j) ->
  written instant js s ->
  let answer := get_rsa (client http (mkIndex (index_entries s) others)) in
  (forall reference, ~ In reference (map (fun j => en_chr (job_entry j)) js) -> answer reference = fail) /\
  (forall holder, holder <> [] -> In holder (map (fun j => en_chr (job_entry j)) js) ->
   exists j x, In j js /\ en_chr (job_entry j) = holder /\
     answer holder = Ok (Some x) /\ unmarshal_rsa (job_data j) = Ok x /\
     rsa_raw x = job_data j /\ rsa_car x = en_car (job_entry j) /\
     forall root_data root, unmarshal_root root_data = Ok root -> extract_erca root_data = Ok (n, e) ->
       rsa_car x = root_key_id root ->
       exists y, verify_rsa_with_root k x (Some root) = (Ok tt, y) /\ rsa_chr y = holder).
Proof.
  intros k http n e js ins s others HB J W answer. apply written_entries in W.
  split.
  - intros r N. unfold answer. cbn [client get_rsa ix_g1].
    destruct (url_of_entries s r) as [(en & I & C & U)|(_ & U)]; [|now rewrite U].
    exfalso. apply N. apply (Permutation_in _ W) in I. apply in_map_iff in I as (j & <- & I).
    apply in_map_iff. now exists j.
  - intros h Hne I. apply in_map_iff in I as (j0 & Q0 & I0).
    destruct (url_of_entries s h) as [(en & I & C & U)|(N & _)].
    2: { exfalso. apply (N (job_entry j0)); [|exact Q0]. apply (Permutation_in _ (Permutation_sym W)). now apply in_map. }
    apply (Permutation_in _ W) in I. apply in_map_iff in I as (j & <- & I).
    destruct (J j I) as (m & P). pose proof (gen1_job _ _ _ _ _ _ HB P) as (Uq & Hd & _ & _ & car & Ec & Qc & O).
    destruct O as [(c & v & eov & Rc & Ex & Vn & Qv & _)|[Q _]]; [|rewrite C in Q; contradiction].
    pose proof (recover_length _ _ _ _ _ Rc) as [L _].
    exists j, (mkRsa [] (dec (be (sub (job_data j) 186 8))) None [] [] (job_data j) None).
    assert (Un : unmarshal_rsa (job_data j) = Ok (mkRsa [] (dec (be (sub (job_data j) 186 8))) None [] [] (job_data j) None)).
    { unfold unmarshal_rsa. rewrite L. reflexivity. }
    split; [exact I|]. split; [exact C|]. split.
    { unfold answer. cbn [client get_rsa ix_g1]. rewrite U, Uq, Hd. cbn [bind]. unfold some_res. now rewrite Un. }
    split; [exact Un|]. split; [reflexivity|]. split.
    { cbn [rsa_car]. rewrite Qc. unfold extract_gen1_car in Ec. inv_bind Ec. apply Ok_inj in Ec. now subst car. }
    intros rd root Ur Er A. cbn [rsa_car] in A.
    destruct (C94_recovery_is_verification k rd root n e (job_data j) Ur Er) as [V1 V2].
    destruct (V2 c Rc A) as (x' & y & Ux & Vy). rewrite Un in Ux. apply Ok_inj in Ux. subst x'.
    exists y. split; [exact Vy|].
    destruct (V1 _ y Un Vy) as (_ & c' & v' & eov' & Rc' & Ex' & Qy & _).
    rewrite Rc in Rc'. apply Ok_inj in Rc'. subst c'. rewrite Ex in Ex'. apply Ok_inj in Ex'. injection Ex' as <- <-.
    congruence.
Qed.

(** The same for the second generation, where the answer is the result of reading a
    certificate saved for the holder: it fails if the library cannot read it (C95). *)
Theorem C99_second_generation :
  forall http js instant s others,
  (forall j, In j js -> exists m, process_gen2 http m = Some j) ->
  written instant js s ->
  let answer := get_ecc (client http (mkIndex others (index_entries s))) in
  (forall reference, ~ In reference (map (fun j => en_chr (job_entry j)) js) -> answer reference = fail) /\
  (forall holder, holder <> [] -> In holder (map (fun j => en_chr (job_entry j)) js) ->
   exists j, In j js /\ en_chr (job_entry j) = holder /\
     (forall x, unmarshal_ecc (job_data j) = Ok x -> answer holder = Ok (Some x)) /\
     forall o, answer holder = Ok o -> exists x, o = Some x /\ unmarshal_ecc (job_data j) = Ok x /\
       ecc_chr x = holder /\ ecc_car x = en_car (job_entry j)).
Proof.
  intros http js ins s others J W answer. apply written_entries in W.
  split.
  - intros r N. unfold answer. cbn [client get_ecc ix_g2].
    destruct (url_of_entries s r) as [(en & I & C & U)|(_ & U)]; [|now rewrite U].
    exfalso. apply N. apply (Permutation_in _ W) in I. apply in_map_iff in I as (j & <- & I).
    apply in_map_iff. now exists j.
  - intros h Hne I. apply in_map_iff in I as (j0 & Q0 & I0).
    destruct (url_of_entries s h) as [(en & I & C & U)|(N & _)].
    2: { exfalso. apply (N (job_entry j0)); [|exact Q0]. apply (Permutation_in _ (Permutation_sym W)). now apply in_map. }
    apply (Permutation_in _ W) in I. apply in_map_iff in I as (j & <- & I).
    destruct (J j I) as (m & P). pose proof (gen2_job _ _ _ P) as (Uq & Hd & _ & _ & car & Ec & Qc & O).
    destruct O as [(v & Ex & Qv)|Q]; [|rewrite C in Q; contradiction].
    exists j. split; [exact I|]. split; [exact C|].
    unfold answer. cbn [client get_ecc ix_g2]. rewrite U, Uq, Hd. cbn [bind]. unfold some_res. split.
    + intros x Ux. now rewrite Ux.
    + intros o A. destruct (unmarshal_ecc (job_data j)) as [x| |] eqn:Ux; try discriminate A. cbn [bind] in A.
      apply Ok_inj in A. exists x. split; [now symmetry|]. split; [reflexivity|].
      destruct (C95_references _ _ Ux) as (car' & chr' & E1 & Q1 & E2 & Q2).
      rewrite Ec in E1. apply Ok_inj in E1. subst car'. rewrite Ex in E2. apply Ok_inj in E2. subst chr'.
      split; congruence.
Qed.

Example C99_applies :
  let m := mkMeta [65] [1] [82; 117; 114; 105] [] in
  let http := fun _ : bytes => Ok (plain_cert [0; 0; 0; 0; 0; 0; 0; 42] [93; 0; 0; 0] [253; 69; 67; 32; 255; 255; 255; 1]) in
  exists n e j root, extract_erca plain_root = Ok (n, e) /\ unmarshal_root plain_root = Ok root /\
    process_gen1 plain_hash http n e m = Some j /\
    en_chr (job_entry j) = [52; 50] /\ en_car (job_entry j) = root_key_id root /\
    job_path j = [103; 49; 47; 52; 50; 46; 98; 105; 110] (* g1/42.bin *) /\
    written (fun _ => None) [j] [job_entry j].
Proof.
  cbv zeta. do 4 eexists. split; [vm_compute; reflexivity|]. split; [vm_compute; reflexivity|]. split; [vm_compute; reflexivity|].
  split; [reflexivity|]. split; [vm_compute; reflexivity|]. split; [reflexivity|].
  exists (mkState (fun _ => None) []). eexists. split; [reflexivity|]. split.
  - unfold workers, worker. cbn [map]. do 3 (apply (I_step []); cbn [List.app]). apply I_done. repeat constructor.
  - split; [reflexivity|]. repeat constructor.
Qed.
