(** Properties C96 to C99: what the concurrent workers of the certificate tool leave
    behind, and what the library finds in the index. *)

From Coq Require Import Permutation Sorted.
From Verif Require Import Base DDScalar Asn1 Cert Verify FetchCerts P_Basic P_Cert Props_Cert Props_Fetch.

Lemma eqb_bytes_iff a b : eqb_bytes a b = true <-> a = b.
Proof. unfold eqb_bytes. destruct (list_eq_dec Z.eq_dec a b); split; congruence. Qed.
Lemma eqb_bytes_refl a : eqb_bytes a a = true.
Proof. now apply eqb_bytes_iff. Qed.

(** ** Interleavings *)

Lemma interleaving_permutation ws l : interleaving ws l -> Permutation l (concat ws).
Proof.
  induction 1 as [ws H|a x w b l H IH].
  - assert (E : concat ws = []) by (induction H as [|? ? -> ? IH]; [reflexivity|exact IH]).
    rewrite E. constructor.
  - rewrite concat_app in *. cbn [concat] in *. rewrite IH.
    cbn [List.app]. apply Permutation_middle.
Qed.

Lemma interleaving_filter f ws l :
  interleaving ws l -> interleaving (map (filter f) ws) (filter f l).
Proof.
  induction 1 as [ws H|a x w b l H IH].
  - cbn [filter]. apply I_done. apply Forall_map. eapply Forall_impl; [|exact H]. intros w ->. reflexivity.
  - rewrite map_app in *. cbn [map filter] in *. destruct (f x); [now apply I_step|exact IH].
Qed.

(** Only one worker has something to do. *)
Lemma interleaving_one a w b l :
  Forall (fun x => x = []) a -> Forall (fun x => x = []) b -> interleaving (a ++ w :: b) l -> l = w.
Proof.
  intros Ha Hb H. remember (a ++ w :: b) as ws eqn:E. revert a w b Ha Hb E.
  induction H as [ws H|a' x w' b' l H IH]; intros a w b Ha Hb E.
  - subst ws. apply Forall_app in H as [_ H]. inversion H; subst; reflexivity.
  - assert (Q : a' = a /\ x :: w' = w /\ b' = b).
    { clear - E Ha Hb. revert a' E. induction Ha as [|y a -> Ha IH]; intros [|z a'] E; cbn in E.
      - now injection E as -> ->.
      - injection E as -> E. exfalso. subst b.
        apply Forall_app in Hb as [_ Hb]. inversion Hb. discriminate.
      - discriminate E.
      - injection E as <- E. destruct (IH a' E) as (-> & ? & ?). auto. }
    destruct Q as (-> & <- & ->). f_equal. now apply (IH a w' b).
Qed.

(** ** What the steps do to one file *)

Definition touches (p : bytes) (x : step) : bool :=
  match x with Truncate q | Write q _ => eqb_bytes q p | Append _ => false end.

Lemma exec_other p s x : touches p x = false -> st_files (exec s x) p = st_files s p.
Proof. destruct x; cbn; intros H; unfold update; rewrite ?H; reflexivity. Qed.

Lemma run_filter p l : forall s s', st_files s p = st_files s' p ->
  st_files (run s l) p = st_files (run s' (filter (touches p) l)) p.
Proof.
  induction l as [|x l IH]; intros s s' E; [exact E|]. cbn [run fold_left filter].
  destruct (touches p x) eqn:T.
  - cbn [fold_left]. apply IH. destruct x as [q|q d|e]; cbn in T; [| |discriminate T];
      apply eqb_bytes_iff in T; subst q; cbn; unfold update; rewrite eqb_bytes_refl; [reflexivity|now rewrite E].
  - apply IH. now rewrite exec_other.
Qed.

Definition file_steps (p : bytes) (j : job) : list step :=
  if eqb_bytes (job_path j) p then [Truncate p; Write p (job_data j)] else [].

Lemma worker_filter p j : filter (touches p) (worker (Some j)) = file_steps p j.
Proof.
  unfold worker, file_steps. cbn. destruct (eqb_bytes (job_path j) p) eqn:E; [|reflexivity].
  apply eqb_bytes_iff in E. now subst.
Qed.

Definition workers (js : list job) : list (list step) := map (fun j => worker (Some j)) js.

Lemma workers_filter p js : map (filter (touches p)) (workers js) = map (file_steps p) js.
Proof. unfold workers. rewrite map_map. apply map_ext. intros j. apply worker_filter. Qed.

(** * C96 *)

Lemma run_entries l : forall s,
  st_entries (run s l) = st_entries s ++ flat_map (fun x => match x with Append e => [e] | _ => [] end) l.
Proof.
  induction l as [|x l IH]; intros s; [now rewrite app_nil_r|].
  cbn [run fold_left flat_map]. change (fold_left exec l (exec s x)) with (run (exec s x) l).
  rewrite IH. destruct x; cbn [exec st_entries List.app]; try reflexivity. now rewrite <- app_assoc.
Qed.

(** In whatever order the workers run, the index gets every entry exactly once. *)
Theorem C96_entries :
  forall js schedule start, interleaving (workers js) schedule ->
  Permutation (st_entries (run start schedule)) (st_entries start ++ map job_entry js).
Proof.
  intros js l s H. apply interleaving_permutation in H. rewrite run_entries.
  apply Permutation_app_head.
  rewrite (Permutation_flat_map _ H). clear H.
  induction js as [|j js IH]; [constructor|]. cbn. now apply perm_skip.
Qed.

(** In whatever order the workers run, a file that only one of them writes holds its
    certificate afterwards, and files nobody writes stay as they were. *)
Theorem C96_files :
  forall js schedule start, interleaving (workers js) schedule ->
  (forall before j after, js = before ++ j :: after ->
     ~ In (job_path j) (map job_path (before ++ after)) ->
     st_files (run start schedule) (job_path j) = Some (job_data j)) /\
  (forall p, ~ In p (map job_path js) -> st_files (run start schedule) p = st_files start p).
Proof.
  intros js l s H.
  assert (N : forall p ks, ~ In p (map job_path ks) -> Forall (fun x => x = []) (map (file_steps p) ks)).
  { intros p ks Hn. apply Forall_map. apply Forall_forall. intros k Hk. unfold file_steps.
    destruct (eqb_bytes (job_path k) p) eqn:E; [|reflexivity]. apply eqb_bytes_iff in E. subst p.
    exfalso. apply Hn. now apply in_map. }
  split.
  - intros a j b -> Hn. set (p := job_path j) in *.
    apply (interleaving_filter (touches p)) in H. rewrite workers_filter, map_app in H. cbn [map] in H.
    rewrite map_app, in_app_iff in Hn.
    apply interleaving_one in H; [|apply N; tauto|apply N; tauto].
    rewrite (run_filter p l s s eq_refl), H. unfold file_steps, p. rewrite eqb_bytes_refl. cbn.
    unfold update. rewrite eqb_bytes_refl. cbn [odflt]. unfold overwrite.
    rewrite skipn_nil, app_nil_r. reflexivity.
  - intros p Hn. rewrite (run_filter p l s s eq_refl).
    apply (interleaving_filter (touches p)) in H. rewrite workers_filter in H.
    apply interleaving_permutation in H.
    assert (E : concat (map (file_steps p) js) = []).
    { pose proof (N p js Hn) as F. clear - F. induction F as [|? ? -> ? IH]; [reflexivity|exact IH]. }
    rewrite E in H. apply Permutation_sym, Permutation_nil in H. now rewrite H.
Qed.

(** Two workers may write the same file (two certificates of one holder).  If all such
    certificates have the same size, as those of the first generation have,
    the file holds one of them. *)
Theorem C96_shared :
  forall js schedule start j n, interleaving (workers js) schedule -> In j js ->
  (forall k, In k js -> job_path k = job_path j -> length (job_data k) = n) ->
  exists k, In k js /\ job_path k = job_path j /\
    st_files (run start schedule) (job_path j) = Some (job_data k).
Proof.
  intros js l s j n H Hj Len. set (p := job_path j) in *.
  apply (interleaving_filter (touches p)) in H. rewrite workers_filter in H.
  rewrite (run_filter p l s s eq_refl). set (lp := filter (touches p) l) in *. clearbody lp. clear l.
  pose (good := fun d => exists k, In k js /\ job_path k = p /\ d = job_data k).
  pose (fine := fun x => match x with Truncate q => q = p | Write q d => q = p /\ good d | Append _ => False end).
  assert (P := interleaving_permutation _ _ H).
  assert (G : Forall fine lp).
  { eapply Permutation_Forall; [symmetry; exact P|]. apply Forall_concat, Forall_map, Forall_forall.
    intros k Hk. unfold file_steps. destruct (eqb_bytes (job_path k) p) eqn:E; [|constructor].
    apply eqb_bytes_iff in E. constructor; [reflexivity|]. constructor; [|constructor].
    split; [reflexivity|]. exists k. auto. }
  assert (NE : lp <> []).
  { intros ->. apply Permutation_nil in P. apply in_split in Hj as (a & b & ->).
    rewrite map_app, concat_app in P. cbn in P. unfold file_steps at 2, p in P. rewrite eqb_bytes_refl in P.
    apply app_eq_nil in P as [_ P]. discriminate P. }
  assert (W : forall ws m, interleaving ws m ->
     Forall (fun w => w = [] \/ exists u q d, w = u ++ [Write q d]) ws ->
     m = [] \/ exists u q d, m = u ++ [Write q d]).
  { clear. induction 1 as [ws H|a x w b l H IH]; intros F; [now left|]. right.
    assert (F' : Forall (fun w => w = [] \/ exists u q d, w = u ++ [Write q d]) (a ++ w :: b)).
    { apply Forall_app in F as [Fa Fb]. inversion Fb as [|? ? Fw Fr]; subst. apply Forall_app. split; [exact Fa|].
      constructor; [|exact Fr]. destruct Fw as [E|(u & q & d & E)]; [discriminate E|].
      destruct u as [|y u]; cbn in E; [left; now injection E|]. right. exists u, q, d. now injection E. }
    destruct (IH F') as [->|(u & q & d & ->)]; [|exists (x :: u), q, d; reflexivity].
    assert (w = []) as ->.
    { apply interleaving_permutation, Permutation_nil in H. rewrite concat_app in H. cbn in H.
      apply app_eq_nil in H as [_ H]. now apply app_eq_nil in H. }
    apply Forall_app in F as [_ F]. inversion F as [|? ? Fw _]; subst.
    destruct Fw as [E|(u & q & d & E)]; [discriminate E|]. exists [], q, d.
    destruct u as [|y u]; [exact E|]. cbn in E. injection E as _ E. now destruct u. }
  destruct (W _ _ H) as [E|(u & q & d & E)].
  { apply Forall_map, Forall_forall. intros k _. unfold file_steps.
    destruct (eqb_bytes (job_path k) p); [|now left]. right. exists [Truncate p], p, (job_data k). reflexivity. }
  { contradiction. }
  subst lp. apply Forall_app in G as [Gu Gd]. inversion Gd as [|? ? Gf _]; subst. destruct Gf as [-> Gd'].
  assert (I : forall u s0, Forall fine u ->
     (odflt [] (st_files s0 p) = [] \/ length (odflt [] (st_files s0 p)) = n \/
      exists t v, u = Truncate t :: v) ->
     u <> [] -> odflt [] (st_files (run s0 u) p) = [] \/ length (odflt [] (st_files (run s0 u) p)) = n).
  { clear - Len. induction u as [|x u IH]; intros s0 F C NE; [congruence|].
    inversion F as [|? ? Fx Fu]; subst. cbn [run fold_left].
    assert (K : odflt [] (st_files (exec s0 x) p) = [] \/ length (odflt [] (st_files (exec s0 x) p)) = n).
    { destruct x as [t|t v|e]; cbn in Fx; [subst t|destruct Fx as (-> & k & Hk & Pk & ->)|contradiction];
        cbn; unfold update; rewrite eqb_bytes_refl; cbn [odflt]; [now left|]. right.
      unfold overwrite. rewrite app_length, skipn_length, (Len k Hk Pk).
      destruct C as [->|[->|(t & v & C)]]; [cbn; lia|lia|discriminate C]. }
    destruct u as [|y u]; [exact K|]. apply IH; [exact Fu|tauto|discriminate]. }
  assert (First : exists t v, u ++ [Write p d] = Truncate t :: v).
  { assert (F : Forall (fun w => w = [] \/ exists t v, w = Truncate t :: v) (map (file_steps p) js)).
    { apply Forall_map, Forall_forall. intros k _. unfold file_steps.
      destruct (eqb_bytes (job_path k) p); [right; eauto|now left]. }
    clear - H F. inversion H as [ws Hw E1 E2|a x w b l Hl E1 E2].
    - now destruct u.
    - rewrite <- E1 in F. apply Forall_app in F as [_ F]. inversion F as [|? ? Fw _]; subst.
      destruct Fw as [E|(t & v & E)]; [discriminate E|]. injection E as -> _. eauto. }
  destruct First as (t & v & First). destruct u as [|x u]; [discriminate First|].
  cbn in First. injection First as -> First.
  destruct Gd' as (k & Hk & Pk & ->). exists k. split; [exact Hk|]. split; [exact Pk|].
  assert (RA : forall x y, run s (x ++ [y]) = exec (run s x) y) by (intros; unfold run; now rewrite fold_left_app).
  rewrite RA. cbn [exec st_files]. unfold update. rewrite eqb_bytes_refl. f_equal.
  destruct (I (Truncate t :: u) s Gu) as [->| E]; [right; right; eauto|discriminate| |].
  - unfold overwrite. rewrite skipn_nil. apply app_nil_r.
  - unfold overwrite. rewrite skipn_all2; [apply app_nil_r|]. rewrite E, (Len k Hk Pk). lia.
Qed.

(** Certificates of the second generation have different sizes.  When two of one holder
    are written at the same time, the file can end up holding neither of them.
    (The index in the repository lists two holders twice.) *)
Definition long_cert : bytes :=
  sample_ecc [0; 0; 0; 0; 0; 0; 0; 42] [93; 0; 0; 0] [107; 0; 0; 0] (repeat 1 32) (repeat 2 32) (repeat 3 33) (repeat 4 33).
Definition other_cert : bytes :=
  sample_ecc [0; 0; 0; 0; 0; 0; 0; 42] [94; 0; 0; 0] [107; 0; 0; 0] (repeat 5 32) (repeat 6 32) (repeat 7 32) (repeat 8 32).
Definition two_pages (u : bytes) : res bytes := if eqb_bytes u [1] then Ok long_cert else Ok other_cert.

Theorem C96_files_refuted :
  exists http m1 m2 j1 j2 schedule,
    process_gen2 http m1 = Some j1 /\ process_gen2 http m2 = Some j2 /\
    interleaving (workers [j1; j2]) schedule /\ job_path j1 = job_path j2 /\
    forall start d, st_files (run start schedule) (job_path j1) = Some d -> d <> job_data j1 /\ d <> job_data j2.
Proof.
  exists two_pages, (mkMeta [65] [1] [] []), (mkMeta [66] [2] [] []).
  destruct (process_gen2 two_pages (mkMeta [65] [1] [] [])) as [j1|] eqn:E1; [|vm_compute in E1; discriminate E1].
  destruct (process_gen2 two_pages (mkMeta [66] [2] [] [])) as [j2|] eqn:E2; [|vm_compute in E2; discriminate E2].
  exists j1, j2, [Truncate (job_path j1); Truncate (job_path j2); Write (job_path j1) (job_data j1);
                  Write (job_path j2) (job_data j2); Append (job_entry j1); Append (job_entry j2)].
  split; [reflexivity|]. split; [reflexivity|].
  assert (D1 : job_data j1 = long_cert) by (vm_compute in E1; injection E1 as <-; reflexivity).
  assert (D2 : job_data j2 = other_cert) by (vm_compute in E2; injection E2 as <-; reflexivity).
  assert (Pq : job_path j1 = job_path j2)
    by (vm_compute in E1, E2; injection E1 as <-; injection E2 as <-; reflexivity).
  split; [|split; [exact Pq|]].
  - unfold workers, worker. cbn [map].
    apply (I_step []). cbn [List.app].
    apply (I_step [[_; _]]). cbn [List.app].
    apply (I_step []). cbn [List.app].
    apply (I_step [[_]]). cbn [List.app].
    apply (I_step []). cbn [List.app].
    apply (I_step [[]]). cbn [List.app].
    apply I_done. repeat constructor.
  - intros s d. cbn. rewrite <- Pq. unfold update. rewrite !eqb_bytes_refl. cbn [odflt].
    rewrite D1, D2. intros X. injection X as <-.
    split; intros Q; apply (f_equal (fun l => (nth 70 l 0, length l))) in Q; vm_compute in Q; discriminate Q.
Qed.

Example C96_example :
  exists j schedule, process_gen2 two_pages (mkMeta [65] [1] [] []) = Some j /\
    interleaving (workers [j]) schedule /\ length (job_data j) = 207%nat /\
    en_path (job_entry j) = [103; 50; 47; 52; 50; 46; 98; 105; 110] (* "g2/42.bin" *).
Proof.
  destruct (process_gen2 two_pages (mkMeta [65] [1] [] [])) as [j|] eqn:E; [|vm_compute in E; discriminate E].
  exists j, (worker (Some j)). split; [reflexivity|]. split.
  - unfold workers, worker. cbn [map].
    do 3 (apply (I_step []); cbn [List.app]). apply I_done. repeat constructor.
  - vm_compute in E. injection E as <-. split; reflexivity.
Qed.

(** * C97: the order of the index *)

Lemma string_lt_irrefl a : string_lt a a = false.
Proof. induction a as [|x a IH]; [reflexivity|]. cbn. now rewrite Z.eqb_refl. Qed.

Lemma string_lt_trans a : forall b c, string_lt a b = true -> string_lt b c = true -> string_lt a c = true.
Proof.
  induction a as [|x a IH]; intros [|y b] [|z c] H K; cbn in *; try discriminate; try reflexivity.
  destruct (Z.eqb_spec x y), (Z.eqb_spec y z), (Z.eqb_spec x z); try lia; subst; try congruence; eauto.
Qed.

Lemma string_lt_total a : forall b, a <> b -> string_lt a b = true \/ string_lt b a = true.
Proof.
  induction a as [|x a IH]; intros [|y b] H; cbn; [congruence|auto|auto|].
  rewrite (Z.eqb_sym y x). destruct (Z.eqb_spec x y); [|lia]. subst. apply IH. congruence.
Qed.

(** What the index is sorted by. *)
Definition key (instant : bytes -> option Z) (e : entry) : bytes * option Z :=
  (en_country e, instant (en_expires e)).

Lemma less_cases instant a b : entry_less instant a b = true \/ entry_less instant b a = true \/
  key instant a = key instant b.
Proof.
  unfold entry_less, key. destruct (eqb_bytes (en_country a) (en_country b)) eqn:E; cbn [negb].
  - apply eqb_bytes_iff in E. rewrite E, eqb_bytes_refl. cbn [negb].
    destruct (instant (en_expires a)) as [x|], (instant (en_expires b)) as [y|]; auto.
    destruct (Z.lt_trichotomy x y) as [L|[->|L]].
    + right. left. now apply Z.ltb_lt.
    + auto.
    + left. now apply Z.ltb_lt.
  - assert (N : en_country a <> en_country b) by (intros N; apply eqb_bytes_iff in N; congruence).
    assert (N' : eqb_bytes (en_country b) (en_country a) = false).
    { destruct (eqb_bytes (en_country b) (en_country a)) eqn:E'; [|reflexivity].
      apply eqb_bytes_iff in E'. congruence. }
    rewrite N'. cbn [negb]. destruct (string_lt_total _ _ N); auto.
Qed.

(** The comparison is a strict weak order, as sort.Slice demands: irreflexive,
    transitive, and two entries neither of which comes first have the same key. *)
Theorem C97_order :
  forall instant,
  (forall a, entry_less instant a a = false) /\
  (forall a b c, entry_less instant a b = true -> entry_less instant b c = true -> entry_less instant a c = true) /\
  (forall a b, (entry_less instant a b = false /\ entry_less instant b a = false) <->
     (en_country a = en_country b /\ instant (en_expires a) = instant (en_expires b))).
Proof.
  intros instant.
  assert (I : forall a, entry_less instant a a = false).
  { intros a. unfold entry_less. rewrite eqb_bytes_refl. cbn [negb].
    destruct (instant (en_expires a)); [apply Z.ltb_irrefl|reflexivity]. }
  split; [exact I|]. split.
  - intros a b c. unfold entry_less.
    destruct (eqb_bytes (en_country a) (en_country b)) eqn:E1; cbn [negb].
    + apply eqb_bytes_iff in E1. rewrite E1.
      destruct (eqb_bytes (en_country b) (en_country c)); cbn [negb]; [|auto].
      destruct (instant (en_expires a)), (instant (en_expires b)), (instant (en_expires c)); try discriminate; auto.
      intros. lia.
    + destruct (eqb_bytes (en_country b) (en_country c)) eqn:E2; cbn [negb].
      * apply eqb_bytes_iff in E2. rewrite <- E2, E1. auto.
      * intros H K. pose proof (string_lt_trans _ _ _ H K) as T.
        destruct (eqb_bytes (en_country a) (en_country c)) eqn:E3; cbn [negb]; [|exact T].
        apply eqb_bytes_iff in E3. rewrite E3, string_lt_irrefl in T. discriminate T.
  - intros a b. split.
    + intros [H K]. destruct (less_cases instant a b) as [L|[L|L]]; try congruence. unfold key in L. split; congruence.
    + intros [H K]. unfold entry_less. rewrite H, K, eqb_bytes_refl. cbn [negb].
      destruct (instant (en_expires b)); [rewrite Z.ltb_irrefl; auto|auto].
Qed.

(** Bytewise dictionary order. *)
Definition precedes (u v : bytes) : Prop :=
  exists c, (u = c /\ exists y w, v = c ++ y :: w) \/
            (exists x y u' v', u = c ++ x :: u' /\ v = c ++ y :: v' /\ x < y).

Lemma string_lt_precedes u : forall v, string_lt u v = true -> precedes u v.
Proof.
  induction u as [|x u IH]; intros [|y v] H; cbn in H; try discriminate H.
  - exists []. left. split; [reflexivity|]. now exists y, v.
  - destruct (Z.eqb_spec x y) as [->|N].
    + destruct (IH v H) as (c & [[-> (z & w & ->)]|(a & b & u' & v' & -> & -> & L)]); exists (y :: c).
      * left. split; [reflexivity|]. now exists z, w.
      * right. now exists a, b, u', v'.
    + exists []. right. exists x, y, u, v. apply Z.ltb_lt in H. auto.
Qed.

(** Of two entries of the index the first has the earlier country, or the same country
    and the later expiration date; entries without a date come last in their country. *)
Theorem C97_sorted :
  forall instant l s p a q b r, sorted_result instant l s -> s = p ++ a :: q ++ b :: r ->
  precedes (en_country a) (en_country b) \/
  (en_country a = en_country b /\
   forall y, instant (en_expires b) = Some y -> exists x, instant (en_expires a) = Some x /\ y <= x).
Proof.
  intros instant l s p a q b r [_ So] ->.
  assert (K : entry_less instant b a = false).
  { clear l. induction p as [|h p IH]; cbn in So; apply StronglySorted_inv in So as [So Hd].
    - rewrite Forall_forall in Hd. apply Hd. apply in_or_app. right. now left.
    - now apply IH. }
  unfold entry_less in K. destruct (eqb_bytes (en_country b) (en_country a)) eqn:E; cbn [negb] in K.
  - apply eqb_bytes_iff in E. right. split; [now symmetry|]. intros y Hy. rewrite Hy in K.
    destruct (instant (en_expires a)) as [x|]; [|discriminate K]. exists x. split; [reflexivity|]. lia.
  - left. assert (N : en_country a <> en_country b) by (intros N; symmetry in N; apply eqb_bytes_iff in N; congruence).
    destruct (string_lt_total _ _ N) as [L|L]; [now apply string_lt_precedes|congruence].
Qed.

Example C97_sorted_example :
  let e := fun c t => mkEntry [] [] c [] t [] in
  let instant := fun t : bytes => match t with [y] => Some y | _ => None end in
  sorted_result instant [e [66] [1]; e [65] []; e [65] [2]; e [65] [3]] [e [65] [3]; e [65] [2]; e [65] []; e [66] [1]].
Proof.
  cbv zeta. split; [|repeat constructor].
  match goal with |- Permutation ?l _ => exact (Permutation_rev l) end.
Qed.

(** The index does not depend on the order in which the workers ran, nor on how
    sort.Slice works, if no two certificates share country and expiration date. *)
Theorem C97_reproducible_partial :
  forall instant js schedule schedule' start s s',
  interleaving (workers js) schedule -> interleaving (workers js) schedule' -> st_entries start = [] ->
  (forall a b, In a (map job_entry js) -> In b (map job_entry js) -> a <> b ->
     ~ (en_country a = en_country b /\ instant (en_expires a) = instant (en_expires b))) ->
  sorted_result instant (st_entries (run start schedule)) s ->
  sorted_result instant (st_entries (run start schedule')) s' ->
  s = s'.
Proof.
  intros instant js l l' st s s' H H' S0 D [P So] [P' So'].
  apply (C96_entries js l st) in H. apply (C96_entries js l' st) in H'. rewrite S0 in *. cbn [List.app] in *.
  assert (Q : Permutation s s') by (rewrite <- P, <- P', H, H'; reflexivity).
  assert (M : forall e, In e s -> In e (map job_entry js)).
  { intros e He. eapply Permutation_in; [exact H|]. eapply Permutation_in; [symmetry; exact P|exact He]. }
  destruct (C97_order instant) as (_ & _ & Eq).
  clear - Q M D So So' Eq. revert s' Q So'.
  induction So as [|a s So IH Hd]; intros s' Q So'.
  - now apply Permutation_nil in Q.
  - destruct s' as [|b s']; [apply Permutation_sym, Permutation_nil in Q; discriminate Q|].
    inversion So' as [|? ? So2 Hd2]; subst.
    assert (E : a = b).
    { assert (Ia : In a (b :: s')) by (eapply Permutation_in; [exact Q|now left]).
      assert (Ib : In b (a :: s)) by (eapply Permutation_in; [symmetry; exact Q|now left]).
      destruct Ia as [->|Ia]; [reflexivity|]. destruct Ib as [->|Ib]; [reflexivity|].
      rewrite Forall_forall in Hd, Hd2. specialize (Hd b Ib). specialize (Hd2 a Ia).
      assert (K := proj1 (Eq a b) (conj Hd2 Hd)).
      assert (De : {a = b} + {a <> b}) by (repeat decide equality).
      destruct De as [|N]; [assumption|]. exfalso. apply (D a b); auto; apply M; auto. now left. now right. }
    subst b. f_equal. apply IH; [intros e He; apply M; now right|now apply Permutation_cons_inv in Q|exact So2].
Qed.

(** It does depend on them otherwise: a country usually has two certificates that expire
    on the same day. *)
Theorem C97_reproducible_refuted :
  exists http m1 m2 j1 j2 schedule, forall instant start,
    st_entries start = [] ->
    process_gen2 http m1 = Some j1 /\ process_gen2 http m2 = Some j2 /\
    interleaving (workers [j1; j2]) schedule /\
    exists s s', s <> s' /\
      sorted_result instant (st_entries (run start schedule)) s /\
      sorted_result instant (st_entries (run start schedule)) s'.
Proof.
  exists two_pages, (mkMeta [65] [1] [65] []), (mkMeta [66] [2] [65] []).
  destruct (process_gen2 two_pages (mkMeta [65] [1] [65] [])) as [j1|] eqn:E1; [|vm_compute in E1; discriminate E1].
  destruct (process_gen2 two_pages (mkMeta [66] [2] [65] [])) as [j2|] eqn:E2; [|vm_compute in E2; discriminate E2].
  exists j1, j2, (worker (Some j1) ++ worker (Some j2)). intros instant st S0.
  split; [reflexivity|]. split; [reflexivity|].
  assert (K : interleaving (workers [j1; j2]) (worker (Some j1) ++ worker (Some j2))).
  { unfold workers, worker. cbn [map List.app].
    do 3 (apply (I_step []); cbn [List.app]). do 3 (apply (I_step [[]]); cbn [List.app]).
    apply I_done. repeat constructor. }
  split; [exact K|].
  assert (En : st_entries (run st (worker (Some j1) ++ worker (Some j2))) = [job_entry j1; job_entry j2]).
  { rewrite run_entries, S0. reflexivity. }
  rewrite En.
  assert (Eq : entry_less instant (job_entry j1) (job_entry j2) = false /\
               entry_less instant (job_entry j2) (job_entry j1) = false).
  { apply (proj2 (proj2 (C97_order instant))).
    vm_compute in E1, E2. injection E1 as <-. injection E2 as <-. split; reflexivity. }
  assert (N : job_entry j1 <> job_entry j2).
  { vm_compute in E1, E2. injection E1 as <-. injection E2 as <-. discriminate. }
  exists [job_entry j1; job_entry j2], [job_entry j2; job_entry j1].
  split; [intros Q; congruence|]. unfold sorted_result. split; split.
  - reflexivity.
  - repeat constructor. apply Eq.
  - apply perm_swap.
  - repeat constructor. apply Eq.
Qed.
