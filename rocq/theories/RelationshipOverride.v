(** select_one with overridden weights: when it raises and when it succeeds. *)
From Verif Require Import Base BaseFacts Rng RngFacts Utils UtilsFacts Relationship SpecRelationship
  RelationshipFacts RelationshipSelect RelationshipMany RelationshipProps.

Lemma override_incomplete r froms pop disc oto d : reachable r ->
  (exists f t, related r f t /\ dget t d = None) ->
  select_one r froms pop disc oto (Some d) = Err AssertionError.
Proof.
  intros Hr (f & t & Hrel & Hd). unfold select_one.
  assert (E : overridden_ok r (Some d) = false); [|now rewrite E].
  cbn [overridden_ok]. destruct (forallb _ _) eqn:E; [|reflexivity]. rewrite forallb_forall in E.
  assert (Hin : In t (unique_tos r)) by (apply (unique_tos_exact r Hr); eauto).
  specialize (E t Hin). unfold dmem in E. rewrite Hd in E. discriminate.
Qed.

Lemma mapr_dget (d : dict val Q) ts : (forall t, In t ts -> exists w, dget t d = Some w) ->
  exists ws : list Q, mapr (fun t => match dget t d with Some w => Ok w | None => Err KeyError end) ts = Ok ws /\
    length ws = length ts /\ (forall w, In w ws <-> exists t, In t ts /\ dget t d = Some w).
Proof.
  induction ts as [|t ts IH]; intros H; cbn [mapr].
  - exists []. split; [reflexivity|]. split; [reflexivity|]. intros w. split; [easy|]. now intros (t & [] & _).
  - destruct (H t (or_introl eq_refl)) as (w & Hw). rewrite Hw. cbn [bind]. destruct IH as (ws & -> & Hl & Hi); [intros t' Ht'; apply H; now right|].
    cbn [bind]. exists (w :: ws). split; [reflexivity|]. split; [cbn; now rewrite Hl|]. intros w'. cbn [In]. rewrite Hi. split.
    + intros [<-|(t' & Ht' & E)]; [exists t; auto|exists t'; auto].
    + intros (t' & [<-|Ht'] & E); [left; congruence|right; eauto].
Qed.

Lemma pick_one_override rel st d : (forall t, In t (to_ids rel) -> exists w, dget t d = Some w /\ (0 <= w)%Q) ->
  (2 <= length (to_ids rel) -> exists t w, In t (to_ids rel) /\ dget t d = Some w /\ (0 < w)%Q) ->
  exists p st', pick_one rel st (Some d) = Ok (p, st').
Proof.
  intros Hc Hp. unfold pick_one. destruct (to_ids rel) as [|t1 [|t2 ts]] eqn:Et; eauto. rewrite <- Et in *.
  destruct (mapr_dget d (to_ids rel)) as (ws & E & Hl & Hi); [intros t Ht; destruct (Hc t Ht) as (w & Hw & _); eauto|].
  rewrite E. cbn [bind].
  destruct (choice_p_normalise (length (to_ids rel)) ws st) as (i & r' & Ec); [exact Hl| |].
  { assert (Hn : forall w, In w ws -> (0 <= w)%Q).
    { intros w Hw. apply Hi in Hw as (t & Ht & Hd). destruct (Hc t Ht) as (w' & Hw' & H0). congruence. }
    split; [exact Hn|]. destruct Hp as (t & w & Ht & Hd & H0); [rewrite Et; cbn; lia|].
    assert (Hw : In w ws) by (apply Hi; eauto). pose proof (qsum_pos _ _ Hn Hw H0) as Hq. intros E0. rewrite E0 in Hq. now apply Qlt_irrefl in Hq. }
  rewrite Ec. cbn [bind]. assert (Hlt : i < length (to_ids rel)) by (apply choice_p_index_lt in Ec; now inversion Ec).
  apply nth_error_Some in Hlt. destruct (nth_error (to_ids rel) i); [|easy]. eauto.
Qed.

Lemma override_succeeds r froms pop disc oto d : reachable r ->
  (forall f t, related r f t -> exists w, dget t d = Some w /\ (0 <= w)%Q) ->
  (forall f, 2 <= length (tos_stored r f) -> exists t w, related r f t /\ dget t d = Some w /\ (0 < w)%Q) ->
  exists rows r', select_one r froms pop disc oto (Some d) = Ok (rows, r').
Proof.
  intros Hr Hc Hp. unfold select_one.
  assert (E : overridden_ok r (Some d) = true).
  { cbn [overridden_ok]. apply forallb_forall. intros t Ht. apply (unique_tos_exact r Hr) in Ht as (f & Ht).
    destruct (Hc f t Ht) as (w & Hw & _). unfold dmem. now rewrite Hw. }
  rewrite E. cbn [negb]. pose proof (reachable_wf r Hr) as Hwf.
  assert (Hrel : forall f rel t, dget f (grouped r) = Some rel -> (related r f t <-> In t (to_ids rel))).
  { intros f rel t Hd. pose proof (wf_grouped_dget _ _ _ Hwf Hd) as [El _]. assert (Hv : view (grouped r) f = rview rel) by (unfold view; now rewrite Hd).
    unfold related. split.
    - intros (w & Hw). rewrite stored_contents in Hw. apply In_contents in Hw; [|apply Hwf]. rewrite Hv in Hw. now apply in_combine_l in Hw.
    - intros Ht. destruct (In_nth_error _ _ Ht) as (i & Hi). destruct (take_some_nth _ (weights rel) _ _ El Hi) as (w & Hw & _).
      exists w. rewrite stored_contents. apply In_contents; [apply Hwf|]. rewrite Hv. unfold rview. now apply nth_error_In in Hw. }
  assert (Hpick : forall f rel st, dget f (grouped r) = Some rel -> exists p st', pick_one rel st (Some d) = Ok (p, st')).
  { intros f rel st Hd. apply pick_one_override.
    - intros t Ht. apply (Hc f). now apply (Hrel f rel).
    - intros Hl. destruct (Hp f) as (t & w & Ht & Hw).
      + rewrite tos_stored_length by exact Hwf. unfold view. rewrite Hd. unfold rview. rewrite combine_length.
        pose proof (wf_grouped_dget _ _ _ Hwf Hd) as [El _]. lia.
      + exists t, w. split; [now apply (Hrel f rel)|exact Hw]. }
  assert (HS : forall reqs st, exists rows st', select_results (grouped r) disc (Some d) reqs st = Ok (rows, st')).
  { induction reqs as [|[ri f] reqs IH]; intros st; cbn [select_results]; [eauto|].
    destruct (dget f (grouped r)) as [rel|] eqn:Ef.
    - destruct (Hpick f rel st Ef) as (p & st1 & ->). cbn [bind]. destruct p as [[i t]|]; cbn [bind]; destruct (IH st1) as (rows & st2 & ->); cbn; eauto.
    - cbn [bind]. destruct (IH st) as (rows & st2 & ->); cbn; eauto. }
  destruct (HS (requests r froms) (r_state r)) as (picks & st1 & ES). unfold requests in ES. rewrite ES. cbn [bind].
  destruct (match picks with [] => _ | _ => _ end) as [out st2]. eauto.
Qed.
