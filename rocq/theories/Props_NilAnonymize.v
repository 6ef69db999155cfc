(** C112: anonymising lists with nil elements. *)

From Verif Require Import Base Enums Chunks DDScalar P_Scalar DDString P_String DDRecord RawTypes RawCard Infer.
From Verif Require Import CardBasic CardRecords P_Records CardIdent CardActivity Cert DriverCard Vu P_Vu Api Nil Props_Nil.
From Verif Require Import Anonymize NilAnonymize.

Lemma mapi_res_np {A B} (f : Z -> A -> res B) : forall l i, (forall j a, In a l -> f j a <> Panic) -> mapi_res f i l <> Panic.
Proof.
  induction l as [|a l IH]; intros i H; cbn [mapi_res]; [discriminate|]. apply bind_np; [apply H; now left|]. intros.
  apply bind_np; [apply IH; intros; apply H; now right|discriminate].
Qed.

Lemma mapi_res_some {A} (f : Z -> A -> A) (g : Z -> option A -> res (option A)) :
  (forall i a, g i (Some a) = Ok (Some (f i a))) -> forall l i, mapi_res g i (map Some l) = Ok (map Some (mapi_from f i l)).
Proof. intros H. induction l as [|a l IH]; intros i; cbn [map mapi_res mapi_from]; [reflexivity|]. now rewrite H, IH. Qed.

(** Stamping keeps nil in place, or panics on a first one. *)
Lemma mapi_res_shape {A} (f : Z -> A -> A) (g : Z -> option A -> res (option A)) :
  (forall i a, g i (Some a) = Ok (Some (f i a))) -> (forall i, g i None = if i =? 0 then Panic else Ok None) ->
  forall l i, 0 <= i -> In None l ->
  mapi_res g i l = Panic \/ exists r, mapi_res g i l = Ok r /\ In None r.
Proof.
  intros H N. induction l as [|[a|] l IH]; intros i I X; cbn [mapi_res]; [destruct X| |].
  - rewrite H. cbn [bind]. destruct X as [X|X]; [discriminate|]. destruct (IH (i + 1)) as [E|(r & E & R)]; auto; [lia| |].
    + rewrite E. now left.
    + rewrite E. right. eexists. split; [reflexivity|]. now right.
  - rewrite N. destruct (i =? 0); [now left|]. cbn [bind].
    assert (T : mapi_res g (i + 1) l <> Panic -> exists r, mapi_res g (i + 1) l = Ok r).
    { assert (G : forall l i, 0 < i -> mapi_res g i l = Panic \/ exists r, mapi_res g i l = Ok r).
      { clear - H N. induction l as [|[a|] l IH]; intros i I; cbn [mapi_res]; [eauto| |].
        - rewrite H. cbn [bind]. destruct (IH (i + 1)) as [E|(r & E)]; [lia|rewrite E; now left|rewrite E; right; eexists; reflexivity].
        - rewrite N. destruct (i =? 0); [now left|]. cbn [bind]. destruct (IH (i + 1)) as [E|(r & E)]; [lia|rewrite E; now left|rewrite E; right; eexists; reflexivity]. }
      intros P. destruct (G l (i + 1)) as [E|E]; [lia|contradiction|exact E]. }
    destruct (mapi_res g (i + 1) l) as [r|e|]; [|exfalso; destruct T as [? T]; discriminate|now left].
    right. eexists. split; [reflexivity|]. now left.
Qed.

Lemma renew_some {A} (ap : A -> res bytes) (apn : option A -> res bytes) set :
  (forall a, apn (Some a) = ap a) -> (forall a, ap a <> Panic) ->
  forall l, map_res (renew apn set) (map Some l) = Ok (map Some (map (regenerate ap set) l)).
Proof.
  intros H N. induction l as [|a l IH]; cbn [map map_res]; [reflexivity|]. unfold renew at 1, regenerate at 1. rewrite H.
  specialize (N a). destruct (ap a); [|..]; try contradiction; cbn [bind]; rewrite IH; reflexivity.
Qed.

Lemma renew_nil {A} (apn : option A -> res bytes) set b : apn None = Ok b -> (forall o, renew apn set o <> Panic \/ o = None) ->
  (forall o e, renew apn set o <> Err e) ->
  forall l, In None l -> map_res (renew apn set) l = Panic.
Proof.
  intros N P E. induction l as [|o l IH]; intros I; [destruct I|]. cbn [map_res].
  destruct o as [a|].
  - destruct I as [I|I]; [discriminate|]. destruct (renew apn set (Some a)) eqn:R; [|now apply E in R|].
    + cbn [bind]. now rewrite IH.
    + destruct (P (Some a)) as [Q|Q]; [contradiction|discriminate].
  - unfold renew at 1. rewrite N. reflexivity.
Qed.

Lemma renew_file_np {A} (ap : A -> res bytes) set a : (forall a, ap a <> Panic) -> renew_file ap set a <> Panic.
Proof. intros H. unfold renew_file. specialize (H a). destruct (ap a); try discriminate. contradiction. Qed.

Lemma list_some {A} (l : list (option A)) : ~ In None l -> exists k, l = map Some k.
Proof.
  induction l as [|[a|] l IH]; intros N; [exists []; reflexivity| |].
  - destruct IH as [k ->]; [intros I; apply N; now right|]. now exists (a :: k).
  - exfalso. apply N. now left.
Qed.

Lemma in_none_map {A} (f : A -> A) l : In None (map (option_map f) l) <-> In None l.
Proof.
  rewrite in_map_iff. split.
  - intros ([a|] & E & I); [discriminate|exact I].
  - intros I. now exists None.
Qed.

Lemma places_point x : anonymize_places_n (point S_places x) = Ok (point S_places (anonymize_places x)).
Proof.
  unfold anonymize_places_n. cbn [point psn_records psn_newest]. rewrite map_map.
  change (fun p => option_map anonymize_place (Some p)) with (fun p => Some (anonymize_place p)). rewrite <- map_map with (g := Some).
  rewrite (mapi_res_some stamp_place) by reflexivity. cbn [bind].
  rewrite (renew_some append_place) by (reflexivity || apply place_np). cbn [bind].
  unfold anonymize_places. cbv zeta. fold (mapi stamp_place (map anonymize_place (ps_records x))).
  set (rs := map (regenerate append_place set_place_raw) _).
  change (mkPlacesN [] (ps_newest x) (map Some rs)) with (point S_places (mkPlaces [] (ps_newest x) rs)).
  unfold renew_file, regenerate. pose proof (content_point S_places (mkPlaces [] (ps_newest x) rs)) as C.
  cbn [append_content_n append_content] in C. rewrite C.
  destruct (append_places _) eqn:P; try reflexivity. exfalso. revert P. unfold append_places. apply pointer_file_np, place_np.
Qed.

Lemma places_g2_point x : anonymize_places_g2_n (point S2_places x) = Ok (point S2_places (anonymize_places_g2 x)).
Proof.
  unfold anonymize_places_g2_n. cbn [point ps2n_records ps2n_newest]. rewrite map_map.
  change (fun p => option_map anonymize_place_g2 (Some p)) with (fun p => Some (anonymize_place_g2 p)). rewrite <- map_map with (g := Some).
  rewrite (mapi_res_some stamp_place_g2) by reflexivity. cbn [bind].
  rewrite (renew_some append_place_g2) by (reflexivity || apply place_g2_np). cbn [bind].
  unfold anonymize_places_g2. cbv zeta. fold (mapi stamp_place_g2 (map anonymize_place_g2 (ps2_records x))).
  set (rs := map (regenerate append_place_g2 set_place_g2_raw) _).
  change (mkPlaces2N [] (ps2_newest x) (map Some rs)) with (point S2_places (mkPlaces2 [] (ps2_newest x) rs)).
  unfold renew_file, regenerate. pose proof (content_point S2_places (mkPlaces2 [] (ps2_newest x) rs)) as C.
  cbn [append_content_n append_content] in C. rewrite C.
  destruct (append_places_g2 _) eqn:P; try reflexivity. exfalso. revert P. unfold append_places_g2. apply pointer_file_np, place_g2_np.
Qed.

Lemma renew_place_np o : renew append_place_n set_place_raw o <> Panic \/ o = None.
Proof.
  destruct o as [p|]; [left|now right]. unfold renew. change (append_place_n (Some p)) with (append_place p). pose proof (place_np p). destruct (append_place p); try discriminate. contradiction.
Qed.
Lemma renew_place_g2_np o : renew append_place_g2_n set_place_g2_raw o <> Panic \/ o = None.
Proof.
  destruct o as [p|]; [left|now right]. unfold renew. change (append_place_g2_n (Some p)) with (append_place_g2 p). pose proof (place_g2_np p). destruct (append_place_g2 p); try discriminate. contradiction.
Qed.
Lemma renew_no_err {A} (ap : option A -> res bytes) set o e : renew ap set o <> Err e.
Proof. unfold renew. destruct (ap o); try discriminate. destruct o; discriminate. Qed.

(** * C112 *)

(** AnonymizePlaces and AnonymizePlacesG2 crash exactly if there is a nil record;
    AnonymizeVehiclesUsed never does. *)
Theorem C112_anonymize_panics_partial :
  (forall x, anonymize_places_n x = Panic <-> In None (psn_records x)) /\
  (forall x, anonymize_places_g2_n x = Panic <-> In None (ps2n_records x)) /\
  (forall x, exists y, anonymize_vehicles_n x = Ok y).
Proof.
  split; [|split]; intros x.
  - split.
    + intros E. destruct (in_dec (fun a b : option place => ltac:(clear; repeat decide equality)) None (psn_records x)) as [I|N]; [exact I|].
      exfalso. destruct x as [raw newest l]. apply list_some in N as [k N]. cbn in N. subst l.
      revert E. unfold anonymize_places_n. cbn [psn_records psn_newest].
      change (mkPlacesN raw newest (map Some k)) with (point S_places (mkPlaces raw newest k)).
      pose proof (places_point (mkPlaces raw newest k)) as P. unfold anonymize_places_n in P. cbn [point psn_records psn_newest ps_records ps_newest] in P.
      rewrite P. discriminate.
    + intros I. unfold anonymize_places_n. apply (in_none_map anonymize_place) in I.
      destruct (mapi_res_shape stamp_place stamp_place_n ltac:(reflexivity) ltac:(reflexivity) _ 0 ltac:(lia) I) as [->|(r & -> & R)]; [reflexivity|].
      cbn [bind]. rewrite (renew_nil append_place_n set_place_raw (repeat 0 10)); auto.
      * apply renew_place_np.
      * intros. apply renew_no_err.
  - split.
    + intros E. destruct (in_dec (fun a b : option place_g2 => ltac:(clear; repeat decide equality)) None (ps2n_records x)) as [I|N]; [exact I|].
      exfalso. destruct x as [raw newest l]. apply list_some in N as [k N]. cbn in N. subst l.
      revert E. pose proof (places_g2_point (mkPlaces2 raw newest k)) as P. unfold anonymize_places_g2_n in P |- *.
      cbn [point ps2n_records ps2n_newest ps2_records ps2_newest] in P |- *.
      rewrite P. discriminate.
    + intros I. unfold anonymize_places_g2_n. apply (in_none_map anonymize_place_g2) in I.
      destruct (mapi_res_shape stamp_place_g2 stamp_place_g2_n ltac:(reflexivity) ltac:(reflexivity) _ 0 ltac:(lia) I) as [->|(r & -> & R)]; [reflexivity|].
      cbn [bind]. rewrite (renew_nil append_place_g2_n set_place_g2_raw (repeat 0 21)); auto.
      * apply renew_place_g2_np.
      * intros. apply renew_no_err.
  - unfold anonymize_vehicles_n, renew_file. set (v := mkVehN _ _ _). pose proof (content_n_np S_vehicles v ltac:(discriminate)) as N.
    cbn [append_content_n] in N. destruct (append_vehicles_n v); eauto. contradiction.
Qed.
Print Assumptions C112_anonymize_panics_partial.

Theorem C112_anonymize_panics_refuted : exists x, anonymize_places_n x = Panic.
Proof. exists (mkPlacesN [] 0 [Some (mkPlace [] None 1 None 21 None [1] 100); None]). reflexivity. Qed.
Print Assumptions C112_anonymize_panics_refuted.

(** Lists without nil are anonymised as [anonymize_places] and so on say. *)
Theorem C112_no_nil :
  (forall x, anonymize_places_n (point S_places x) = Ok (point S_places (anonymize_places x))) /\
  (forall x, anonymize_places_g2_n (point S2_places x) = Ok (point S2_places (anonymize_places_g2 x))) /\
  (forall x, anonymize_vehicles_n (point S_vehicles x) = Ok (point S_vehicles (anonymize_vehicles x))).
Proof.
  split; [exact places_point|]. split; [exact places_g2_point|]. intros x.
  unfold anonymize_vehicles_n. cbn [point vsn_records vsn_newest].
  assert (M : forall l i, mapi_from (fun i => option_map (anonymize_vehicle i)) i (map Some l) = map Some (mapi_from anonymize_vehicle i l)).
  { induction l as [|a l IH]; intros i; cbn [map mapi_from]; [reflexivity|]. now rewrite IH. }
  unfold mapi at 1. rewrite M. fold (mapi anonymize_vehicle (vs_records x)). unfold anonymize_vehicles. set (rs := mapi _ _).
  change (mkVehN [] (vs_newest x) (map Some rs)) with (point S_vehicles (mkVeh [] (vs_newest x) rs)).
  unfold renew_file, regenerate. pose proof (content_point S_vehicles (mkVeh [] (vs_newest x) rs)) as C.
  cbn [append_content_n append_content] in C. rewrite C.
  destruct (append_vehicles _) eqn:P; try reflexivity. exfalso. revert P. unfold append_vehicles. apply pointer_file_np, vehicle_np.
Qed.
Print Assumptions C112_no_nil.

(** A nil vehicle is kept and costs the regenerated raw data. *)
Theorem C112_nil_vehicle : forall x y, In None (vsn_records x) -> anonymize_vehicles_n x = Ok y ->
  In None (vsn_records y) /\ vsn_raw y = [].
Proof.
  intros x y I E. unfold anonymize_vehicles_n, renew_file in E. set (rs := mapi _ _) in E.
  assert (N : In None rs).
  { subst rs. clear E. unfold mapi. revert I. generalize 0. generalize (vsn_records x). induction l as [|a l IH]; intros i I; [destruct I|].
    cbn [mapi_from]. destruct I as [->|I]; [now left|right; now apply IH]. }
  destruct (append_vehicles_n _) eqn:A.
  - exfalso. unfold append_vehicles_n in A. cbn [vsn_records] in A. apply (pointer_all _ _ _ _ _ _ A) in N as [? N].
    revert N. vm_compute. discriminate.
  - apply Ok_inj in E. subst y. auto.
  - discriminate.
Qed.
Print Assumptions C112_nil_vehicle.
