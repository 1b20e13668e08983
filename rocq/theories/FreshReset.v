(** Resetting timers keeps the advanced timer generator (C109). *)
From Verif Require Import Base BaseFacts Rng Relationship Clock World Story RandomGens OpsFacts.

Lemma get_param_ids s p ids l : get_param s p ids = Ok l -> map fst l = ids.
Proof.
  unfold get_param.
  assert (K : forall (f : val -> result (val * Q)) l, (forall i x, f i = Ok x -> fst x = i) -> mapr f ids = Ok l -> map fst l = ids).
  { intros f l0 Hf. revert l0. induction ids as [|i t IH]; intros l0 E; cbn in E; [now injection E as <-|].
    destruct (f i) as [x|] eqn:Ef; [|discriminate]. destruct (mapr f t) as [xs|] eqn:Et; [|discriminate].
    injection E as <-. cbn. rewrite (Hf _ _ Ef). f_equal. now apply IH. }
  destruct (length (get_possible_states s) =? 1).
  - apply K. intros i x E. destruct (declared s p i _); [now injection E as <-|discriminate].
  - destruct (negb (nodupb ids)); [discriminate|]. apply K. intros i x E.
    destruct (state_of s i); [|discriminate]. destruct (declared s p i _); [now injection E as <-|discriminate].
Qed.

Lemma fresh_reset a oids w w' s y : nth_error (w_stories w) a = Some s -> nth_error (w_tgens w) (st_tgen s) = Some (TCyclic y) ->
  story_reset a oids w = (Ok tt, w') ->
  exists obs ts y', cyclic_generate y obs = Ok (ts, y') /\ nth_error (w_tgens w') (st_tgen s) = Some (TCyclic y') /\
    map fst obs = index_difference (match oids with None => st_ids s | Some l => l end) (st_forced s).
Proof.
  intros Hs Hy H. unfold story_reset in H.
  apply bindM_ok in H as (s0 & w0 & H0 & H). apply deref_ok in H0 as [H0 ->]. rewrite Hs in H0. injection H0 as <-.
  apply bindM_ok in H as (g & w0 & H0 & H). apply deref_ok in H0 as [H0 ->]. rewrite Hy in H0. injection H0 as <-.
  apply bindM_ok in H as ([s' g'] & w0 & H0 & H). apply lift_ok in H0 as [H0 ->].
  unfold put_tgen, put_story, bindM, modify in H. injection H as <-. cbn [w_tgens set_stories set_tgens].
  rewrite nth_error_set_nth, Nat.eqb_refl, Hy.
  unfold reset_timers in H0. set (ids := index_difference _ _) in *. clearbody ids. destruct ids as [|i t].
  - injection H0 as <- <-. exists [], [], y. split; [|split; reflexivity].
    unfold cyclic_generate. cbn. now destruct y.
  - destruct (get_param s Activity (i :: t)) as [obs|] eqn:Eo; [|discriminate]. cbn in H0.
    destruct (cyclic_generate y obs) as [[ts y']|] eqn:Ey; [|discriminate]. cbn in H0.
    destruct (negb _); [discriminate|]. injection H0 as _ <-. exists obs, ts, y'. repeat split; trivial.
    exact (get_param_ids _ _ _ _ Eo).
Qed.
