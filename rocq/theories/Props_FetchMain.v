(** Properties C122 and C123: what a run of the tool that fills the certificate cache leaves
    behind, whether it succeeds, fails or is killed. *)

From Coq Require Import String Permutation Sorted.
From Verif Require Import Base DDScalar Asn1 Cert Verify FetchCerts FetchMain Props_Fetch Props_FetchRun Props_FetchIndex.
Local Open Scope list_scope.

(** ** Steps on files *)

Lemma exec_files s s' x : (forall q, st_files s q = st_files s' q) -> forall q, st_files (exec s x) q = st_files (exec s' x) q.
Proof. intros E q. destruct x; cbn; unfold update; rewrite ?E; reflexivity. Qed.

Lemma after_steps l : forall d s, (forall q, dk_files d q = st_files s q) ->
  (forall q, dk_files (after d (map Act l)) q = st_files (run s l) q) /\ dk_index (after d (map Act l)) = dk_index d.
Proof.
  induction l as [|x l IH]; intros d s E; [split; [exact E|reflexivity]|].
  cbn [map after fold_left run].
  destruct (IH (do_action d (Act x)) (exec s x)) as [A B].
  { intros q. cbn [do_action dk_files]. now apply exec_files. }
  split; [exact A|]. etransitivity; [exact B|]. reflexivity.
Qed.

Lemma after_app d a b : after d (a ++ b) = after (after d a) b.
Proof. unfold after. apply fold_left_app. Qed.

Lemma after_removes ps : forall d,
  (forall q, In q ps -> dk_files (after d (map Remove ps)) q = None) /\
  (forall q, ~ In q ps -> dk_files (after d (map Remove ps)) q = dk_files d q) /\
  dk_index (after d (map Remove ps)) = dk_index d.
Proof.
  induction ps as [|p ps IH]; intros d; [repeat split; intros ? []|].
  cbn [map after fold_left]. destruct (IH (do_action d (Remove p))) as (A & B & C).
  split; [|split; [|exact C]].
  - intros q I. destruct (in_dec (list_eq_dec Z.eq_dec) q ps) as [J|J]; [now apply A|].
    destruct I as [->|I]; [|contradiction]. refine (eq_trans (B q J) _). cbn. now rewrite eqb_bytes_refl.
  - intros q N. refine (eq_trans (B q _) _); [intros J; apply N; now right|]. cbn.
    destruct (eqb_bytes p q) eqn:E; [|reflexivity]. apply eqb_bytes_iff in E. subst. exfalso. apply N. now left.
Qed.

Lemma run_keeps p l : forall s, st_files s p <> None -> st_files (run s l) p <> None.
Proof.
  induction l as [|x l IH]; intros s H; [exact H|]. cbn [run fold_left]. apply IH.
  destruct x; cbn; unfold update; [destruct (eqb_bytes _ _); congruence..|exact H].
Qed.

Lemma run_touched p l x : In x l -> touches p x = true -> forall s, st_files (run s l) p <> None.
Proof.
  intros I T. apply in_split in I as (a & b & ->). intros s. unfold run. rewrite fold_left_app. cbn [fold_left].
  apply run_keeps. destruct x; cbn in T |- *; try discriminate T; unfold update; rewrite T; discriminate.
Qed.

Lemma run_untouched p l : (forall x, In x l -> touches p x = false) -> forall s, st_files (run s l) p = st_files s p.
Proof.
  induction l as [|x l IH]; intros T s; [reflexivity|]. cbn [run fold_left]. refine (eq_trans (IH _ _) _).
  - intros y I. apply T. now right.
  - apply exec_other. apply T. now left.
Qed.

Lemma interleaving_app ws l ws' l' : interleaving ws l -> interleaving ws' l' -> interleaving (ws ++ ws') (l ++ l').
Proof.
  intros H H'. induction H as [ws H|a x w b l H IH].
  - cbn [List.app]. induction H' as [ws' H'|a x w b l' H' IH].
    + apply I_done. now apply Forall_app.
    + rewrite app_assoc. apply I_step. now rewrite <- app_assoc.
  - rewrite <- app_assoc in *. cbn [List.app] in *. now apply I_step.
Qed.

(** ** Workers *)

Lemma torn_steps p d l x : torn p d l -> In x l -> x = Truncate p \/ exists e, x = Write p e.
Proof. intros [->|(n & ->)] I; [destruct I|]. destruct I as [<-|[<-|[]]]; eauto. Qed.

Lemma worker_steps o w x : worker_run o w -> In x w ->
  exists j, o = Some j /\ (x = Append (job_entry j) /\ w = worker (Some j) \/ touches (job_path j) x = true /\ forall p, touches p x = true -> p = job_path j).
Proof.
  intros W I.
  assert (Q : forall j, x = Truncate (job_path j) \/ (exists e, x = Write (job_path j) e) ->
              touches (job_path j) x = true /\ forall p, touches p x = true -> p = job_path j).
  { intros j [->|(e & ->)]; cbn [touches]; (split; [apply eqb_bytes_refl|]); intros p T; now apply eqb_bytes_iff in T. }
  destruct W as [|j|j l T].
  - destruct I.
  - exists j. split; [reflexivity|]. destruct I as [<-|[<-|[<-|[]]]]; [right; apply Q; eauto..|now left].
  - exists j. split; [reflexivity|]. right. apply Q. eapply torn_steps; eassumption.
Qed.

Section Runs.
Context (jobs : list (option job)) (ws : list (list step)) (l : list step).
Context (W : Forall2 worker_run jobs ws) (I : interleaving ws l).

Lemma step_of x : In x l -> exists o w, worker_run o w /\ In x w /\ In o jobs /\ In w ws.
Proof.
  intros H. apply (Permutation_in _ (interleaving_permutation _ _ I)) in H. apply in_concat in H as (w & Hw & Hx).
  clear I. induction W as [|o w0 js ws' R F IH]; [destruct Hw|].
  destruct Hw as [->|Hw]; [exists o, w; repeat split; auto; now left|].
  destruct (IH F Hw) as (o' & w' & A & B & C & D). exists o', w'. repeat split; auto; now right.
Qed.

Lemma step_in w x : In w ws -> In x w -> In x l.
Proof.
  intros A B. apply (Permutation_in _ (Permutation_sym (interleaving_permutation _ _ I))). apply in_concat. eauto.
Qed.

Lemma appended_in e : In e (appended l) <-> In (Append e) l.
Proof.
  unfold appended. rewrite in_flat_map. split.
  - intros (x & A & B). destruct x as [q|q c|e']; [destruct B..|]. destruct B as [<-|[]]. exact A.
  - intros A. exists (Append e). split; [exact A|now left].
Qed.

Lemma appended_job e : In (Append e) l -> exists j, In (Some j) jobs /\ job_entry j = e /\ In (worker (Some j)) ws.
Proof.
  intros H. destruct (step_of _ H) as (o & w & R & X & O & Iw).
  destruct (worker_steps _ _ _ R X) as (j & -> & [[Q ->]|[T _]]); [|discriminate T].
  injection Q as ->. eauto.
Qed.

Lemma appended_file e : (forall j, In (Some j) jobs -> job_path j = en_path (job_entry j)) -> In (Append e) l ->
  forall s, st_files (run s l) (en_path e) <> None.
Proof.
  intros P H. destruct (appended_job _ H) as (j & A & <- & B). rewrite <- P by exact A.
  apply (run_touched _ _ (Truncate (job_path j))); [|apply eqb_bytes_refl].
  eapply step_in; [exact B|]. now left.
Qed.

Lemma only_jobs p x : In x l -> touches p x = true -> exists j, In (Some j) jobs /\ job_path j = p.
Proof.
  intros H T. destruct (step_of _ H) as (o & w & R & X & O & _).
  destruct (worker_steps _ _ _ R X) as (j & -> & [[-> _]|[_ Q]]); [discriminate T|].
  exists j. split; [exact O|]. symmetry. now apply Q.
Qed.

Lemma quiet p ks vs : Forall2 worker_run ks vs -> (forall k, In (Some k) ks -> job_path k <> p) ->
  Forall (fun v => v = []) (map (filter (touches p)) vs).
Proof.
  intros F N. induction F as [|o v ks vs R F IH]; [constructor|]. cbn [map]. constructor.
  - destruct (filter (touches p) v) as [|x t] eqn:E; [reflexivity|]. exfalso.
    assert (X : In x (filter (touches p) v)) by (rewrite E; now left). apply filter_In in X as [X T].
    destruct (worker_steps _ _ _ R X) as (j & -> & [[-> _]|[_ Q]]); [discriminate T|].
    apply (N j); [now left|]. symmetry. now apply Q.
  - apply IH. intros k Hk. apply N. now right.
Qed.

Lemma kept_job e ks vs : Forall2 worker_run ks vs -> In (Append e) (concat vs) ->
  exists k, In (Some k) ks /\ job_entry k = e.
Proof.
  intros R X. induction R as [|o v ks vs R F IH]; [destruct X|].
  cbn [concat] in X. apply in_app_or in X as [X|X].
  - destruct (worker_steps _ _ _ R X) as (k & -> & [[Q _]|[T _]]); [|discriminate T].
    injection Q as ->. exists k. split; [now left|reflexivity].
  - destruct (IH X) as (k & A & B). exists k. split; [now right|exact B].
Qed.

Lemma alone before j rest : jobs = before ++ Some j :: rest -> In (Append (job_entry j)) l ->
  (forall k, In (Some k) jobs -> job_path k = en_path (job_entry k)) ->
  (forall k, In (Some k) (before ++ rest) -> job_path k <> job_path j) ->
  filter (touches (job_path j)) l = [Truncate (job_path j); Write (job_path j) (job_data j)].
Proof.
  intros E H P N.
  pose proof W as W'. rewrite E in W'. apply Forall2_app_inv_l in W' as (va & vb & Fa & Fb & Ews).
  inversion Fb as [|o w ks vb' Rj Fb' E1 E2]. subst o ks vb.
  assert (O : forall k, In (Some k) (before ++ rest) -> job_entry k <> job_entry j).
  { intros k Ik Q. apply (N k Ik). rewrite (P k), (P j), Q; [reflexivity|..]; rewrite E.
    - apply in_or_app. right. now left.
    - apply in_app_or in Ik as [Ik|Ik]; apply in_or_app; [now left|right; now right]. }
  assert (Kw : w = worker (Some j)).
  { apply (Permutation_in _ (interleaving_permutation _ _ I)) in H. rewrite Ews, concat_app in H. cbn [concat] in H.
    apply in_app_or in H as [H|H]; [|apply in_app_or in H as [H|H]].
    - destruct (kept_job _ _ _ Fa H) as (k & Ik & Q). exfalso. apply (O k); [apply in_or_app; now left|exact Q].
    - destruct (worker_steps _ _ _ Rj H) as (k & Q & [[_ ->]|[T _]]); [now rewrite Q|discriminate T].
    - destruct (kept_job _ _ _ Fb' H) as (k & Ik & Q). exfalso. apply (O k); [apply in_or_app; now right|exact Q]. }
  pose proof (interleaving_filter (touches (job_path j)) _ _ I) as J. rewrite Ews, map_app in J. cbn [map] in J.
  apply interleaving_one in J.
  - rewrite J, Kw, worker_filter. unfold file_steps. now rewrite eqb_bytes_refl.
  - apply (quiet _ before); [exact Fa|]. intros k Ik. apply N. apply in_or_app. now left.
  - apply (quiet _ rest); [exact Fb'|]. intros k Ik. apply N. apply in_or_app. now right.
Qed.

Lemma appended_jobs : exists kept lost, Permutation (flat_map (fun o => match o with Some j => [j] | None => [] end) jobs) (kept ++ lost) /\
  Permutation (map job_entry kept) (appended l).
Proof.
  assert (P : Permutation (appended l) (appended (concat ws))).
  { unfold appended. apply Permutation_flat_map. now apply interleaving_permutation. }
  enough (X : exists kept lost, Permutation (flat_map (fun o => match o with Some j => [j] | None => [] end) jobs) (kept ++ lost) /\
            map job_entry kept = appended (concat ws)).
  { destruct X as (kept & lost & A & B). exists kept, lost. split; [exact A|]. rewrite B. now symmetry. }
  clear I P. induction W as [|o w js vs R F IH]; [exists [], []; split; [constructor|reflexivity]|].
  destruct (IH F) as (kept & lost & A & B). cbn [flat_map concat]. unfold appended. rewrite flat_map_app. fold (appended w) (appended (concat vs)).
  rewrite <- B. destruct R as [|j|j t T].
  - exists kept, lost. split; [exact A|reflexivity].
  - exists (j :: kept), lost. split; [cbn; now apply perm_skip|reflexivity].
  - exists kept, (j :: lost). split; [cbn [List.app]; rewrite <- Permutation_middle; now apply perm_skip|].
    destruct T as [->|(n & ->)]; reflexivity.
Qed.
End Runs.

Lemma gen1_path k http n e m j : process_gen1 k http n e m = Some j ->
  job_path j = en_path (job_entry j) /\ en_url (job_entry j) = me_url m /\ http (me_url m) = Ok (job_data j).
Proof.
  intros P. unfold process_gen1, download in P.
  destruct (http (me_url m)) as [d0| |] eqn:Hd; cbn [bind is_some_ok] in P; try discriminate P.
  do 2 (destruct (guard _) as [?| |] in P; cbn [bind is_some_ok] in P; try discriminate P).
  destruct (extract_gen1_car d0) as [car| |] eqn:Ec; cbn [bind is_some_ok] in P; try discriminate P.
  destruct (is_some_ok _) as [[chr eov]|] in P; injection P as <-; repeat split.
Qed.

Section Whole.
Context (o : outside) (base : bytes).

Lemma jobs_path n e p1 p2 j : In (Some j) (jobs_g1 o base n e p1 ++ jobs_g2 o base p2) ->
  job_path j = en_path (job_entry j) /\ o_http o (en_url (job_entry j)) = Ok (job_data j).
Proof.
  intros H. apply in_app_or in H as [H|H]; apply in_map_iff in H as (m & Q & _).
  - apply gen1_path in Q as (A & -> & C). auto.
  - apply gen2_job in Q as (-> & C & A & _). auto.
Qed.
End Whole.

(** * C122: the index and the files *)

(** A file of the cache *)
Definition cache_file (p : bytes) : Prop :=
  exists name, ~ In 47 name /\
    (p = txt "root/" ++ name ++ txt ".bin" \/ p = txt "g1/" ++ name ++ txt ".bin" \/ p = txt "g2/" ++ name ++ txt ".bin").

Lemma cache_file_iff p : cache_file p <-> matched p.
Proof.
  split.
  - intros (name & N & H).
    destruct H as [->|[->| ->]]; [exists (txt "root"), name|exists (txt "g1"), name|exists (txt "g2"), name]; cbn [In]; auto.
  - intros (dir & name & H & N & ->). exists name. split; [exact N|]. destruct H as [<-|[<-|[<-|[]]]]; auto.
Qed.

(** When a run succeeds, the index is on disk and every file it names is there.  An entry
    comes from a certificate that was downloaded from its address, and its file holds that
    certificate if no other row of the tables leads to the same path.  The root is there
    unless a row leads to its path.  Of earlier runs no file is left in the three
    directories, and all other files are as they were. *)
Theorem C122_success_partial :
  forall o base d l, ran o base d l Success ->
  exists i root n e page1 page2,
    let d' := after d l in
    let jobs1 := map (process_gen1 (o_crypto o) (o_http o) n e) (parse_table (o_text o) base page1) in
    let jobs2 := map (process_gen2 (o_http o)) (parse_table (o_text o) base page2) in
    let jobs := jobs1 ++ jobs2 in
    dk_index d' = Some (Some i) /\
    o_root o = Ok root /\ extract_erca root = Ok (n, e) /\
    o_page o (base ++ txt "/dtc_public_key_certificates_dt.php.html") = Ok page1 /\
    o_page o (base ++ txt "/dtc_public_key_certificates_st.php.html") = Ok page2 /\
    en_path (sx_root i) = txt "root/EC_PK.bin" /\
    (forall x, In x (sx_root i :: sx_g1 i ++ sx_g2 i) -> dk_files d' (en_path x) <> None) /\
    (forall x, In x (sx_g1 i) -> exists j, In (Some j) jobs1 /\ job_entry j = x) /\
    (forall x, In x (sx_g2 i) -> exists j, In (Some j) jobs2 /\ job_entry j = x) /\
    (forall j, In (Some j) jobs -> job_path j = en_path (job_entry j) /\ o_http o (en_url (job_entry j)) = Ok (job_data j)) /\
    (forall before j rest, jobs = before ++ Some j :: rest -> In (job_entry j) (sx_g1 i ++ sx_g2 i) ->
       (forall k, In (Some k) (before ++ rest) -> job_path k <> job_path j) ->
       dk_files d' (job_path j) = Some (job_data j)) /\
    ((forall k, In (Some k) jobs -> job_path k <> txt "root/EC_PK.bin") -> dk_files d' (txt "root/EC_PK.bin") = Some root) /\
    (forall p, cache_file p -> dk_files d' p <> None -> p = txt "root/EC_PK.bin" \/ exists j, In (Some j) jobs /\ job_path j = p) /\
    (forall p, ~ cache_file p -> p <> txt "root/EC_PK.bin" -> (forall j, In (Some j) jobs -> job_path j <> p) -> dk_files d' p = dk_files d p).
Proof.
  intros o base d l R. inversion R as [| | | | | | |c b n e p1 l1 p2 l2 s1 s2 C Rt Key P1 (w1 & F1 & I1) P2 (w2 & F2 & I2) [S1 _] [S2 _]]; subst.
  exists (mkSaved (root_entry b) s1 s2), b, n, e, p1, p2. cbv zeta. cbn [sx_root sx_g1 sx_g2].
  pose proof (Forall2_app F1 F2) as W. pose proof (interleaving_app _ _ _ _ I1 I2) as I.
  set (jobs := jobs_g1 o base n e p1 ++ jobs_g2 o base p2) in *.
  pose proof (fun j => jobs_path o base n e p1 p2 j) as JP. fold jobs in JP.
  destruct C as (ps & -> & _ & Ps). destruct (after_removes ps d) as (Gone & Stay & _).
  set (d1 := after d (map Remove ps)) in *. set (s0 := mkState (dk_files d1) []).
  destruct (after_steps (full_write root_path b ++ l1 ++ l2) d1 s0 (fun q => eq_refl)) as [Fl _].
  assert (Fin : forall q, dk_files (after d (map Remove ps ++ map Act (full_write root_path b ++ l1 ++ l2) ++
                 [IndexTruncate; IndexWrite (mkSaved (root_entry b) s1 s2)])) q = st_files (run s0 (full_write root_path b ++ l1 ++ l2)) q).
  { intros q. rewrite !after_app. exact (Fl q). }
  assert (Ap : forall x, In x (s1 ++ s2) <-> In (Append x) (l1 ++ l2)).
  { intros x. rewrite <- appended_in. unfold appended. rewrite flat_map_app, !in_app_iff. fold (appended l1) (appended l2).
    split; (intros [H|H]; [left|right]); [| |apply (Permutation_in _ S1 H)|apply (Permutation_in _ S2 H)];
      [exact (Permutation_in _ (Permutation_sym S1) H)|exact (Permutation_in _ (Permutation_sym S2) H)]. }
  assert (Rn : forall s, run s (full_write root_path b ++ l1 ++ l2) = run (run s (full_write root_path b)) (l1 ++ l2)).
  { intros s. unfold run. apply fold_left_app. }
  assert (Rw : forall s, st_files (run s (full_write root_path b)) root_path = Some b).
  { intros s. unfold full_write, run. cbn [fold_left exec st_files]. unfold update. rewrite !eqb_bytes_refl. cbn [odflt].
    unfold overwrite. now rewrite skipn_nil, app_nil_r. }
  split; [rewrite !after_app; reflexivity|]. split; [exact Rt|]. split; [exact Key|]. split; [exact P1|]. split; [exact P2|].
  split; [reflexivity|]. split; [|split; [|split; [|split; [exact JP|split; [|split; [|split]]]]]].
  - intros x [<-|X]; rewrite Fin, Rn.
    + apply run_keeps. change (en_path (root_entry b)) with root_path. rewrite Rw. discriminate.
    + apply Ap in X. apply (appended_file _ _ _ W I); [|exact X]. intros j Hj. now apply JP.
  - intros x X. assert (Y : In (Append x) l1) by (apply appended_in; exact (Permutation_in _ (Permutation_sym S1) X)).
    destruct (appended_job _ _ _ F1 I1 _ Y) as (j & A & B & _). eauto.
  - intros x X. assert (Y : In (Append x) l2) by (apply appended_in; exact (Permutation_in _ (Permutation_sym S2) X)).
    destruct (appended_job _ _ _ F2 I2 _ Y) as (j & A & B & _). eauto.
  - intros before j rest E X N. apply Ap in X. rewrite Fin, Rn.
    rewrite (run_filter (job_path j) _ _ _ eq_refl).
    rewrite (alone _ _ _ W I before j rest E X (fun k Hk => proj1 (JP k Hk)) N).
    unfold run. cbn [fold_left exec st_files]. unfold update. rewrite !eqb_bytes_refl. cbn [odflt].
    unfold overwrite. now rewrite skipn_nil, app_nil_r.
  - intros N. rewrite Fin, Rn. change (txt "root/EC_PK.bin") with root_path in *. rewrite run_untouched; [apply Rw|].
    intros x X. destruct (touches root_path x) eqn:T; [|reflexivity].
    destruct (only_jobs _ _ _ W I _ _ X T) as (j & A & B). now apply N in A.
  - intros p M X. apply cache_file_iff in M. rewrite Fin in X. destruct (existsb (touches p) (full_write root_path b ++ l1 ++ l2)) eqn:Q.
    + apply existsb_exists in Q as (x & H & T). apply in_app_or in H as [H|H].
      * left. destruct H as [<-|[<-|[]]]; cbn [touches] in T; now apply eqb_bytes_iff in T.
      * right. exact (only_jobs _ _ _ W I _ _ H T).
    + exfalso. rewrite run_untouched in X.
      * cbn [s0 st_files] in X. destruct (in_dec (list_eq_dec Z.eq_dec) p ps) as [J|J]; [now rewrite Gone in X|].
        rewrite Stay in X by exact J. apply J. apply Ps. auto.
      * intros x H. destruct (touches p x) eqn:T; [|reflexivity].
        assert (existsb (touches p) (full_write root_path b ++ l1 ++ l2) = true) by (apply existsb_exists; eauto). congruence.
  - intros p M Np N. rewrite cache_file_iff in M. rewrite Fin. rewrite run_untouched.
    + apply Stay. intros J. apply Ps in J. now apply M.
    + intros x H. destruct (touches p x) eqn:T; [|reflexivity]. exfalso. apply in_app_or in H as [H|H].
      * apply Np. destruct H as [<-|[<-|[]]]; cbn [touches] in T; now apply eqb_bytes_iff in T.
      * destruct (only_jobs _ _ _ W I _ _ H T) as (j & A & B). now apply N in A.
Qed.

Definition on_index (a : action) : bool := match a with IndexTruncate | IndexWrite _ => true | _ => false end.

Lemma index_kept l : forall d, (forall a, In a l -> on_index a = false) -> dk_index (after d l) = dk_index d.
Proof.
  induction l as [|a l IH]; intros d N; [reflexivity|]. cbn [after fold_left]. refine (eq_trans (IH _ _) _).
  - intros b H. apply N. now right.
  - specialize (N a (or_introl eq_refl)). destruct a; [reflexivity..|discriminate N|discriminate N].
Qed.

Lemma no_index_steps c l : forall d, cleaning d c -> forall a, In a (c ++ map Act l) -> on_index a = false.
Proof.
  intros d (ps & -> & _) a H. apply in_app_or in H as [H|H]; apply in_map_iff in H as (x & <- & _); reflexivity.
Qed.

Lemma prefix_cases {A} (l r a : list A) x y : l ++ r = a ++ [x; y] ->
  (exists t, a = l ++ t) \/ l = a ++ [x] \/ l = a ++ [x; y].
Proof.
  revert l. induction a as [|h a IH]; intros l E.
  - destruct l as [|u [|v [|w l]]]; cbn in E; [left; now exists []|injection E as -> ->; auto|injection E as -> -> ->; auto|].
    injection E as _ _ E. discriminate E.
  - destruct l as [|u l]; [left; now exists (h :: a)|]. cbn in E. injection E as -> E.
    destruct (IH l E) as [(t & ->)|[->| ->]]; [left; now exists t|auto|auto].
Qed.

(** Whenever a run ends, or is killed, the index that can be read is the one of before, or
    the run has succeeded.  When it fails, the index is the one of before or cannot be
    read. *)
Theorem C122_old_or_new :
  forall o base d,
  (forall l rest e i, ran o base d (l ++ rest) e -> dk_index (after d l) = Some (Some i) ->
     dk_index d = Some (Some i) \/ (rest = [] /\ e = Success)) /\
  (forall l, ran o base d l Failure -> dk_index (after d l) = dk_index d \/ dk_index (after d l) = Some None).
Proof.
  intros o base d.
  assert (Plain : forall l rest c k, cleaning d c -> l ++ rest = c ++ map Act k -> dk_index (after d l) = dk_index d).
  { intros l rest c k C E. apply index_kept. intros a H. apply (no_index_steps _ k _ C). rewrite <- E. apply in_or_app. now left. }
  assert (Fails : forall l rest, ran o base d (l ++ rest) Failure -> dk_index (after d l) = dk_index d \/ dk_index (after d l) = Some None).
  { intros l rest R. remember (l ++ rest) as k eqn:E. remember Failure as f eqn:Ef.
    destruct R as [c k C|c C|c b t C|c b C|c b n e C|c b n e p1 l1 C|c b n e p1 l1 p2 l2 t C Rt Key P1 W1 P2 W2 T|]; try discriminate Ef.
    - left. apply (Plain l (rest ++ c) _ [] C). cbn [map]. now rewrite app_nil_r, app_assoc, <- E.
    - left. apply (Plain l rest c [] C). cbn [map]. now rewrite app_nil_r.
    - left. eapply Plain; [exact C|symmetry; exact E].
    - left. eapply Plain; [exact C|symmetry; exact E].
    - left. eapply Plain; [exact C|symmetry; exact E].
    - left. eapply Plain; [exact C|symmetry; exact E].
    - destruct T as [->| ->].
      + left. rewrite app_nil_r in E. eapply Plain; [exact C|symmetry; exact E].
      + rewrite app_assoc in E. set (m := c ++ map Act _) in E.
        assert (X : l ++ (rest ++ [IndexTruncate]) = m ++ [IndexTruncate; IndexTruncate]).
        { rewrite app_assoc, <- E, <- app_assoc. reflexivity. }
        apply prefix_cases in X as [(q & X)|[->| ->]].
        * left. eapply (Plain l q c); [exact C|symmetry; exact X].
        * right. rewrite after_app. reflexivity.
        * right. rewrite after_app. reflexivity. }
  split.
  - intros l rest e i R X. destruct e.
    + remember (l ++ rest) as k eqn:E. remember Success as f eqn:Ef.
      destruct R as [| | | | | | |c b n e p1 l1 p2 l2 s1 s2 C]; try discriminate Ef.
      rewrite app_assoc in E. set (m := c ++ map Act _) in E. symmetry in E.
      pose proof (prefix_cases _ _ _ _ _ E) as [(q & Y)|[->| Y]].
      * left. rewrite <- X. symmetry. eapply (Plain l q c); [exact C|symmetry; exact Y].
      * rewrite after_app in X. discriminate X.
      * right. split; [|reflexivity]. rewrite <- Y in E. rewrite <- (app_nil_r l) in E at 2. now apply app_inv_head in E.
    + left. destruct (Fails _ _ R) as [Q|Q]; [now rewrite <- Q|rewrite Q in X; discriminate X].
  - intros l R. apply (Fails l []). now rewrite app_nil_r.
Qed.

(** ** A cache that is filled again *)

Definition old_cert : bytes := plain_cert [0; 0; 0; 0; 0; 0; 0; 42] [93; 0; 0; 0] [253; 69; 67; 32; 255; 255; 255; 1].
Definition old_entry : entry := mkEntry (txt "18249347129437814785") (txt "42") (txt "Ruri") (txt "https://x/42") [] (txt "g1/42.bin").
Definition old_index : saved_index := mkSaved (root_entry plain_root) [old_entry] [].
Definition old_disk : disk :=
  mkDisk (fun q => if eqb_bytes q root_path then Some plain_root else if eqb_bytes q (txt "g1/42.bin") then Some old_cert
                   else if eqb_bytes q (txt "README") then Some [1] else None) (Some (Some old_index)).

Definition old_removed : list action := map Remove [root_path; txt "g1/42.bin"].

Lemma old_cleaning : cleaning old_disk old_removed.
Proof.
  exists [root_path; txt "g1/42.bin"]. split; [reflexivity|]. split.
  { constructor; [|constructor; [intros []|constructor]]. intros [Q|[]]. vm_compute in Q. discriminate Q. }
  intros p. cbn [old_disk dk_files]. split.
  - intros [<-|[<-|[]]]; (split; [|intros Q; vm_compute in Q; discriminate Q]).
    + exists (txt "root"), (txt "EC_PK"). split; [now left|]. split; [|reflexivity]. vm_compute. intuition discriminate.
    + exists (txt "g1"), (txt "42"). split; [right; now left|]. split; [|reflexivity]. vm_compute. intuition discriminate.
  - intros [M X].
    destruct (eqb_bytes p root_path) eqn:A; [apply eqb_bytes_iff in A; subst; now left|].
    destruct (eqb_bytes p (txt "g1/42.bin")) eqn:B; [apply eqb_bytes_iff in B; subst; right; now left|].
    destruct (eqb_bytes p (txt "README")) eqn:C; [|now contradiction X].
    apply eqb_bytes_iff in C. subst. destruct M as (dir & name & [<-|[<-|[<-|[]]]] & _ & Q); vm_compute in Q; discriminate Q.
Qed.

Definition plain_text : text := mkText (fun s => s) (fun s => s).
Definition row_of (name : bytes) : node :=
  Node KElement s_tr []
    [cell [Node KText (txt "Ruri") [] []]; cell [Node KText (txt "01/01/2030") [] []];
     cell [Node KElement s_a [(s_href, s_bin_dt ++ txt "=" ++ name)] []]].
Definition page_of (rows : list node) : node := Node KElement (txt "table") [] rows.
(** Where the second page has no rows. *)
Definition site (root : res bytes) (rows : list node) (http : bytes -> res bytes) : outside :=
  mkOutside plain_hash plain_text (fun _ => None) root
    (fun u => Ok (page_of (if eqb_bytes u (page_g1 []) then rows else []))) http.

(** That every file the index names is there does not hold at all times.  The files of the
    last run are removed first and the index is written last: when the root cannot be
    downloaded, the old index stays and names files that are gone. *)
Theorem C122_refuted :
  exists o base d l i,
    dk_index d = Some (Some i) /\
    (forall x, In x (sx_root i :: sx_g1 i ++ sx_g2 i) -> dk_files d (en_path x) <> None) /\ sx_g1 i <> [] /\
    ran o base d l Failure /\ dk_index (after d l) = Some (Some i) /\
    forall x, In x (sx_root i :: sx_g1 i ++ sx_g2 i) -> dk_files (after d l) (en_path x) = None.
Proof.
  exists (site fail [row_of (txt "ruri")] (fun _ => Ok old_cert)), [], old_disk, old_removed, old_index.
  split; [reflexivity|]. split.
  { intros x [<-|[<-|[]]] Q; vm_compute in Q; discriminate Q. }
  split; [discriminate|]. split; [apply R_root; [exact old_cleaning|reflexivity]|]. split; [reflexivity|].
  intros x [<-|[<-|[]]]; vm_compute; reflexivity.
Qed.

(** Nor does every file hold its certificate after a success: of two rows that lead to the
    same path one is written, and writing the other one fails. *)
Theorem C122_content_refuted :
  exists o base d l i x certificate,
    ran o base d l Success /\ dk_index (after d l) = Some (Some i) /\ In x (sx_g1 i) /\
    o_http o (en_url x) = Ok certificate /\ length certificate = 194%nat /\
    dk_files (after d l) (en_path x) = Some [].
Proof.
  set (o := site (Ok plain_root) [row_of (txt "one"); row_of (txt "two")] (fun _ => Ok old_cert)).
  destruct (extract_erca plain_root) as [[n e]| |] eqn:E; [|vm_compute in E; discriminate E..].
  assert (X : exists j k, jobs_g1 o [] n e (page_of [row_of (txt "one"); row_of (txt "two")]) = [Some j; Some k] /\
                job_path j = txt "g1/42.bin" /\ job_path k = txt "g1/42.bin" /\ en_path (job_entry j) = txt "g1/42.bin").
  { vm_compute in E. injection E as <- <-. do 2 eexists. split; [vm_compute; reflexivity|]. repeat split. }
  destruct X as (j & k & J & Pj & Pk & Ej).
  exists o, [], old_disk.
  pose (l1 := worker (Some j) ++ [Truncate (job_path k); Write (job_path k) (firstn 0 (job_data k))]).
  exists (old_removed ++ map Act (full_write root_path plain_root ++ l1 ++ []) ++ [IndexTruncate; IndexWrite (mkSaved (root_entry plain_root) [job_entry j] [])]).
  exists (mkSaved (root_entry plain_root) [job_entry j] []), (job_entry j), old_cert.
  split.
  { apply R_done with (n := n) (e := e) (p1 := page_of [row_of (txt "one"); row_of (txt "two")]) (p2 := page_of []).
    - exact old_cleaning.
    - reflexivity.
    - exact E.
    - reflexivity.
    - exists [worker (Some j); [Truncate (job_path k); Write (job_path k) (firstn 0 (job_data k))]]. split.
      + rewrite J. constructor; [apply W_kept|]. constructor; [|constructor]. apply W_failed. right. now exists 0%nat.
      + unfold l1, worker. cbn [List.app].
        do 3 (apply (I_step []); cbn [List.app]). do 2 (apply (I_step [[]]); cbn [List.app]). apply I_done. repeat constructor.
    - vm_compute; reflexivity.
    - exists []. split; [constructor|]. apply I_done. constructor.
    - split; [reflexivity|]. constructor; constructor.
    - split; [reflexivity|constructor]. }
  split; [rewrite !after_app; reflexivity|]. split; [now left|]. split; [reflexivity|]. split; [vm_compute; reflexivity|].
  rewrite Ej. unfold l1, worker. rewrite Pj, Pk. vm_compute. reflexivity.
Qed.

(** * C123: what success means *)

(** A run that ends in success has downloaded the root and both tables, and its index has
    exactly one entry for every row it kept: of those whose certificate was accepted, all
    but the ones whose file could not be written.  No entry comes from anything else. *)
Theorem C123_success_partial :
  forall o base d l, ran o base d l Success ->
  exists i root n e page1 page2 kept1 lost1 kept2 lost2,
    let accepted := fun js : list (option job) => flat_map (fun x => match x with Some j => [j] | None => [] end) js in
    dk_index (after d l) = Some (Some i) /\
    o_root o = Ok root /\ length root = 144%nat /\ extract_erca root = Ok (n, e) /\
    o_page o (base ++ txt "/dtc_public_key_certificates_dt.php.html") = Ok page1 /\
    o_page o (base ++ txt "/dtc_public_key_certificates_st.php.html") = Ok page2 /\
    Permutation (accepted (map (process_gen1 (o_crypto o) (o_http o) n e) (parse_table (o_text o) base page1))) (kept1 ++ lost1) /\
    Permutation (map job_entry kept1) (sx_g1 i) /\
    Permutation (accepted (map (process_gen2 (o_http o)) (parse_table (o_text o) base page2))) (kept2 ++ lost2) /\
    Permutation (map job_entry kept2) (sx_g2 i) /\
    en_car (sx_root i) = dec (be (firstn 8 root)) /\ en_chr (sx_root i) = dec (be (firstn 8 root)) /\
    en_url (sx_root i) = txt "https://dtc.jrc.ec.europa.eu/erca_of_doc/EC_PK.zip" /\ en_path (sx_root i) = txt "root/EC_PK.bin" /\
    (forall before x between y after', sx_g1 i = before ++ x :: between ++ y :: after' \/ sx_g2 i = before ++ x :: between ++ y :: after' ->
       entry_less (o_instant o) y x = false).
Proof.
  intros o base d l R. inversion R as [| | | | | | |c b n e p1 l1 p2 l2 s1 s2 C Rt Key P1 (w1 & F1 & I1) P2 (w2 & F2 & I2) [S1 O1] [S2 O2]]; subst.
  destruct (appended_jobs _ _ _ F1 I1) as (k1 & t1 & A1 & B1). destruct (appended_jobs _ _ _ F2 I2) as (k2 & t2 & A2 & B2).
  assert (L : length b = 144%nat).
  { clear - Key. unfold extract_erca in Key. apply bind_ok in Key as (u & G & _). unfold guard in G.
    destruct (Nat.eqb_spec (length b) 144); [assumption|discriminate G]. }
  exists (mkSaved (root_entry b) s1 s2), b, n, e, p1, p2, k1, t1, k2, t2. cbv zeta. cbn [sx_root sx_g1 sx_g2].
  split; [rewrite !after_app; reflexivity|]. split; [exact Rt|]. split; [exact L|]. split; [exact Key|]. split; [exact P1|]. split; [exact P2|].
  split; [exact A1|]. split; [now transitivity (appended l1)|]. split; [exact A2|]. split; [now transitivity (appended l2)|].
  unfold root_entry. rewrite L. split; [reflexivity|]. split; [reflexivity|]. split; [reflexivity|]. split; [reflexivity|].
  assert (Sr : forall s, StronglySorted (fun a b => entry_less (o_instant o) b a = false) s ->
               forall before x between y rest, s = before ++ x :: between ++ y :: rest -> entry_less (o_instant o) y x = false).
  { clear. intros s Ss before x between y rest ->. induction before as [|h t IH]; cbn [List.app] in Ss; apply StronglySorted_inv in Ss as [Ss Fa].
    - rewrite Forall_forall in Fa. apply Fa. apply in_or_app. right. now left.
    - now apply IH. }
  intros before x between y rest [Q|Q]; [exact (Sr _ O1 _ _ _ _ _ Q)|exact (Sr _ O2 _ _ _ _ _ Q)].
Qed.

(** That success means that every listed certificate was saved does not hold: the tables
    have a row, no certificate can be downloaded, and the run ends in success with an index
    without certificates, after removing the one it had. *)
Theorem C123_refuted :
  exists o base d l i before,
    dk_index d = Some (Some before) /\ sx_g1 before <> [] /\
    (forall x, In x (sx_g1 before) -> dk_files d (en_path x) <> None) /\
    (exists page, o_page o (base ++ txt "/dtc_public_key_certificates_dt.php.html") = Ok page /\ parse_table (o_text o) base page <> []) /\
    (forall u, o_http o u = fail) /\
    ran o base d l Success /\ dk_index (after d l) = Some (Some i) /\ sx_g1 i = [] /\ sx_g2 i = [] /\
    forall x, In x (sx_g1 before) -> dk_files (after d l) (en_path x) = None.
Proof.
  destruct (extract_erca plain_root) as [[n e]| |] eqn:E; [|vm_compute in E; discriminate E..].
  exists (site (Ok plain_root) [row_of (txt "ruri")] (fun _ => fail)), [], old_disk.
  exists (old_removed ++ map Act (full_write root_path plain_root ++ [] ++ []) ++ [IndexTruncate; IndexWrite (mkSaved (root_entry plain_root) [] [])]).
  exists (mkSaved (root_entry plain_root) [] []), old_index.
  split; [reflexivity|]. split; [discriminate|]. split.
  { intros x [<-|[]] Q; vm_compute in Q; discriminate Q. }
  split.
  { exists (page_of [row_of (txt "ruri")]). split; [vm_compute; reflexivity|]. intros Q. vm_compute in Q. discriminate Q. }
  split; [reflexivity|]. split.
  { apply R_done with (n := n) (e := e) (p1 := page_of [row_of (txt "ruri")]) (p2 := page_of []).
    - exact old_cleaning.
    - reflexivity.
    - exact E.
    - reflexivity.
    - exists [[]]. split; [constructor; [|constructor]; constructor|]. apply I_done. repeat constructor.
    - vm_compute; reflexivity.
    - exists []. split; [constructor|]. apply I_done. constructor.
    - split; [reflexivity|constructor].
    - split; [reflexivity|constructor]. }
  split; [rewrite !after_app; reflexivity|]. split; [reflexivity|]. split; [reflexivity|].
  intros x [<-|[]]. vm_compute. reflexivity.
Qed.

(** Filling the cache again when nothing fails: the old file is gone and written anew with
    the certificate the row leads to, and a file that is none of the tool's stays. *)
Example C122_example :
  exists o base l i x, ran o base old_disk l Success /\ dk_index (after old_disk l) = Some (Some i) /\
    sx_g1 i = [x] /\ en_country x = txt "Ruri" /\ en_path x = txt "g1/42.bin" /\
    dk_files (after old_disk l) (txt "g1/42.bin") = Some old_cert /\
    dk_files (after old_disk l) root_path = Some plain_root /\ dk_files (after old_disk l) (txt "README") = Some [1] /\
    (exists l' rest, l = l' ++ rest /\ dk_index (after old_disk l') = Some None).
Proof.
  set (o := site (Ok plain_root) [row_of (txt "ruri")] (fun _ => Ok old_cert)).
  destruct (extract_erca plain_root) as [[n e]| |] eqn:E; [|vm_compute in E; discriminate E..].
  assert (X : exists j, jobs_g1 o [] n e (page_of [row_of (txt "ruri")]) = [Some j] /\
                job_path j = txt "g1/42.bin" /\ job_data j = old_cert /\ en_path (job_entry j) = txt "g1/42.bin" /\
                en_country (job_entry j) = txt "Ruri").
  { vm_compute in E. injection E as <- <-. eexists. split; [vm_compute; reflexivity|]. repeat split; vm_compute; reflexivity. }
  destruct X as (j & J & Pj & Dj & Ej & Cj).
  pose (i := mkSaved (root_entry plain_root) [job_entry j] []).
  pose (l0 := old_removed ++ map Act (full_write root_path plain_root ++ worker (Some j) ++ [])).
  exists o, [], (l0 ++ [IndexTruncate; IndexWrite i]), i, (job_entry j).
  split.
  { unfold l0. rewrite <- app_assoc. apply R_done with (n := n) (e := e) (p1 := page_of [row_of (txt "ruri")]) (p2 := page_of []).
    - exact old_cleaning.
    - reflexivity.
    - exact E.
    - reflexivity.
    - exists [worker (Some j)]. split.
      + rewrite J. constructor; [apply W_kept|]. constructor.
      + unfold worker. cbn [List.app]. do 3 (apply (I_step []); cbn [List.app]). apply I_done. repeat constructor.
    - vm_compute; reflexivity.
    - exists []. split; [constructor|]. apply I_done. constructor.
    - split; [reflexivity|]. constructor; constructor.
    - split; [reflexivity|constructor]. }
  split; [rewrite !after_app; reflexivity|]. split; [reflexivity|]. split; [exact Cj|]. split; [exact Ej|].
  unfold l0, worker. rewrite Pj, Dj.
  split; [vm_compute; reflexivity|]. split; [vm_compute; reflexivity|]. split; [vm_compute; reflexivity|].
  exists (l0 ++ [IndexTruncate]), [IndexWrite i]. split; [unfold l0, worker; now rewrite Pj, Dj, <- app_assoc|]. now rewrite after_app.
Qed.
