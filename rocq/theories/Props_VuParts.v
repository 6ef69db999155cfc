(** C52: what is written of the parts of a vehicle unit download. *)

From Verif Require Import Base RawTypes Vu Api P_Vu Props_Dump Props_Vu.

Lemma fills_length l tail v : fills l tail v -> (list_sum (map (fun st => st_skip st + st_head st) l) + tail <= length v)%nat.
Proof.
  induction 1 as [tail e E|st l tail a h b e A H B F IH].
  - cbn. lia.
  - cbn [map]. change (list_sum (?x :: ?y)) with (x + list_sum y)%nat. rewrite !app_length. lia.
Qed.

Lemma transfer_nonempty t : well_formed t -> snd t <> [].
Proof.
  intros (l & tail & J & F) E. apply fills_length in F. rewrite E in F. cbn [length] in F.
  repeat destruct J as [J|J]; try (injection J as _ <- <-; vm_compute in F; lia). destruct J.
Qed.

(** Every part of a message that was read is written as the transfer it was read
    from, and of any message, read or put together by a program, the bytes it keeps
    are written or nothing.  Only for the first-generation overview is there another writer (C81).
    Missing: the writers are not used (C52_round_trip_refuted). *)
Theorem C52_parts_partial :
  (forall cm d v, bytes_ok d -> unmarshal_file cm d = Ok (vu v) ->
   exists ts, d = download ts /\
     forall k l b, In (k, l) (kept v) -> In b l -> In (k, b) ts /\ append_raw (Some b) = Ok b) /\
  forall o b, append_raw o = Ok b <-> o = Some b /\ b <> [].
Proof.
  split; [|intros o b; split].
  2:{ destruct o as [[|x r]|]; try discriminate. intros E. apply Ok_inj in E. subst b. split; [reflexivity|discriminate]. }
  2:{ intros [-> N]. destruct b; [now destruct N|reflexivity]. }
  intros cm d v B E. destruct (C49_split_without_loss cm d v B E) as (ts & D & W & _ & K & _). exists ts. split; [exact D|].
  intros k l b J I. apply K in J. assert (IV : In b (values k ts)).
  { destruct (existsb (Z.eqb k) [0x01; 0x21; 0x31]); [|now rewrite <- J]. subst l. unfold last_one in I.
    destruct (rev (values k ts)) as [|x r] eqn:R; [destruct I|]. destruct I as [<-|[]]. apply in_rev. rewrite R. now left. }
  unfold values in IV. apply in_map_iff in IV as ([k' b'] & Q & IV). cbn [snd] in Q. subst b'.
  apply filter_In in IV as [IV EK]. cbn [fst] in EK. apply Z.eqb_eq in EK. subst k'. split; [exact IV|].
  rewrite Forall_forall in W. apply W, transfer_nonempty in IV. cbn [snd] in IV. destruct b; [now destruct IV|reflexivity].
Qed.
Print Assumptions C52_parts_partial.

Example C52_parts_example : exists d v b, bytes_ok d /\ unmarshal_file no_charmap d = Ok (vu v) /\
  In (0x24, [b]) (kept v) /\ length b = 10%nat.
Proof.
  exists (download sample_download). do 2 eexists. split; [apply bytes_okb_ok; reflexivity|]. split; [exact sample_accepted|].
  split; [|instantiate (1 := empty_arrays 2); reflexivity]. cbn [kept gen2_message g2_overview g2_activities g2_events g2_speed g2_technical].
  do 3 right. left. reflexivity.
Qed.
