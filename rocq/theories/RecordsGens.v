(** Generators give only values of their support, whatever their state. *)
From Verif Require Import Base BaseFacts Rng RngFacts Utils UtilsFacts Relationship SpecRelationship RelationshipFacts Frame Gens GensProps
  Clock SpecClock Attribute World Story Ops Helpers Circus SpecStory SpecOps SpecCircus
  SpecPopulation SpecLocal SpecSupply Fs SpecFs SpecLedger GensKept SpecRecords.

Lemma Forall_repeat {A} (P : A -> Prop) x n : P x -> Forall P (repeat x n).
Proof. intros H. induction n; cbn; constructor; auto. Qed.

Lemma take_nth {A} (l : list A) : forall idx vs, take idx l = Ok vs -> Forall2 (fun i v => nth_error l i = Some v) idx vs.
Proof.
  induction idx as [|i idx IH]; cbn; intros vs E.
  - injection E as <-. constructor.
  - unfold take in E. cbn in E. apply bind_ok in E as (x & Hx & E). apply bind_ok in E as (xs & Hxs & E). injection E as <-.
    constructor; [|apply IH; exact Hxs]. destruct (nth_error l i); [now injection Hx as <-|discriminate].
Qed.

Lemma Forall2_Forall_r {A B} (R : A -> B -> Prop) (P : A -> Prop) (Q : B -> Prop) :
  (forall x y, R x y -> P x -> Q y) -> forall l l', Forall2 R l l' -> Forall P l -> Forall Q l'.
Proof. intros H l l' F. induction F; intros G; constructor; inversion G; subst; eauto. Qed.

Lemma gen_step_can h i g0 g n vs g' :
  nth_error h i = Some g0 -> same_gen g0 g -> gen_step g n = Ok (vs, g') -> Forall (can_give h i) vs.
Proof.
  intros Hi S. destruct g; cbn [gen_step]; try easy.
  - destruct g0; cbn in S; try easy. subst v0. intros [= <- <-]. apply Forall_repeat. now constructor.
  - destruct g0; cbn in S; try easy. subst vs1. destruct (_ =? _)%Z; [|easy]. intros [= <- <-].
    apply Forall_forall. intros v Hv. eapply give_fixed; eauto.
  - destruct g0; cbn in S; try easy. destruct S as [-> _].
    assert (D : forall st0 vs st', np_generate m n st0 = Ok (vs, st') -> Forall (can_give h i) vs).
    { clear vs g'. intros st0 vs st'. unfold np_generate. destruct (n <? 0)%Z; [easy|]. destruct m as [|a [ps|]|f].
      - destruct (draws _ _ _) as [us s'] eqn:Ed. intros [= <- _]. apply Forall_map.
        refine (draws_Forall _ uniform _ _ _ _ _ Ed). intros r x r' Hu. eapply give_uniform; [exact Hi|].
        eapply uniform_range; exact Hu.
      - intros E. apply bind_ok in E as ([idx s'] & E1 & E). apply bind_ok in E as (ws & E2 & E). injection E as <- _.
        apply choice_p_spec in E1 as [_ E1]. apply take_nth in E2.
        eapply Forall2_Forall_r; [|exact E2|exact E1]. cbv beta. intros j v Hv (q & Hq & P). eapply give_weighted; eauto.
      - intros E. apply bind_ok in E as ([idx s'] & E1 & E). apply bind_ok in E as (ws & E2 & E). injection E as <- _.
        apply take_nth in E2. apply choice_spec in E1 as [_ E1].
        eapply Forall2_Forall_r; [|exact E2|exact E1]. cbv beta. intros j v Hv _. eapply give_choice; [exact Hi|].
        eapply nth_error_In; eauto.
      - destruct (draws _ _ _) as [xs s'] eqn:Ed. intros [= <- _]. apply Forall_map, Forall_forall. intros x _. eapply give_law; eauto. }
    destruct bound; intros E; apply bind_ok in E as ([x s] & E & E'); injection E' as <- <-; eauto.
  - destruct g0; cbn in S; try easy. destruct S as (-> & -> & ->). destruct (n <? 0)%Z; [easy|]. destruct (draws _ _ _) as [xs s'].
    intros [= <- <-]. apply Forall_map, Forall_map, Forall_forall. intros x _.
    destruct force_int; [eapply give_int_pareto|eapply give_pareto]; eauto.
  - destruct g0; cbn in S; try easy. destruct S as (-> & ->). intros [= <- <-].
    unfold build_ids. apply Forall_map, Forall_map, Forall_forall. intros k _. eapply give_id; eauto.
  - destruct g0; cbn in S; try easy. subst values0. intros [= <- <-]. apply Forall_map, Forall_forall. intros k _. eapply give_oracle; eauto.
  - destruct g0; cbn in S; try easy. destruct S as (-> & -> & -> & ->). destruct (n <? 0)%Z; [easy|]. intros E.
    apply bind_ok in E as ([x s] & _ & E). apply bind_ok in E as (y & _ & E). injection E as <- <-.
    apply Forall_map, Forall_forall. intros [k j] _. eapply give_number; eauto.
Qed.

Lemma heap_calls_can (P : list gen -> Prop) (Q : val -> Prop) call :
  (forall h n vs h', P h -> call h n = Ok (vs, h') -> P h' /\ Forall Q vs) ->
  forall ns h vss h', P h -> heap_calls call h ns = Ok (vss, h') -> P h' /\ Forall (Forall Q) vss.
Proof.
  intros Hc. induction ns as [|n ns IH]; intros h vss h' Hh E; cbn in E.
  - injection E as <- <-. split; [exact Hh|constructor].
  - apply bind_ok in E as ([vs h1] & E1 & E). apply bind_ok in E as ([vss' h2] & E2 & E). injection E as <- <-.
    destruct (Hc _ _ _ _ Hh E1) as [H1 F1]. destruct (IH _ _ _ H1 E2) as [H2 F2]. split; [exact H2|now constructor].
Qed.

Lemma mapr_out {A B} (f : A -> result B) : forall l l', mapr f l = Ok l' -> forall y, In y l' -> exists x, In x l /\ f x = Ok y.
Proof.
  induction l as [|x l IH]; cbn; intros l' E y Hy.
  - injection E as <-. destruct Hy.
  - apply bind_ok in E as (z & Hz & E). apply bind_ok in E as (zs & Hzs & E). injection E as <-.
    destruct Hy as [<- |Hy]; [eauto|]. destruct (IH _ Hzs _ Hy) as (x' & Hx & Hf). eauto.
Qed.

Lemma heap_can h0 fuel : forall h i size vs h',
  gens_kept h0 h -> i < length h0 -> heap_generate fuel h i size = Ok (vs, h') -> Forall (can_give h0 i) vs.
Proof.
  induction fuel as [|fuel IH]; intros h i size vs h' K Hl E; cbn [heap_generate] in E; [discriminate|].
  destruct (nth_error h0 i) as [g0|] eqn:H0; [|apply nth_error_None in H0; lia].
  destruct (K _ _ H0) as (g & Hg & Sg). rewrite Hg in E.
  assert (D : (let! (vs0, g') := gen_step g size in Ok (vs0, set_nth i g' h)) = Ok (vs, h') -> Forall (can_give h0 i) vs).
  { intros E0. apply bind_ok in E0 as ([x g'] & E0 & E1). injection E1 as <- <-. eapply gen_step_can; eauto. }
  destruct g; try exact (D E); clear D.
  - destruct (Nat.ltb_spec parent i) as [Lp|]; [|discriminate]. apply bind_ok in E as ([s h1] & E1 & E).
    apply bind_ok in E as (x & Ex & E). injection E as <- <-.
    assert (F : Forall (can_give h0 parent) s) by (eapply IH; [exact K|lia|exact E1]).
    destruct g0; cbn in Sg; try easy. destruct Sg as (-> & ->). apply Forall_forall. intros v Hv. destruct f as [f|f].
    + destruct (mapr_out _ _ _ Ex _ Hv) as (u & Hu & Hf). rewrite Forall_forall in F. eapply give_mapped; eauto.
    + eapply give_mapped_vector; eauto.
  - destruct (Nat.ltb_spec parent i) as [Lp|]; [|discriminate]. destruct (Nat.ltb_spec elem i) as [Le|]; [|discriminate].
    cbn [andb] in E. apply bind_ok in E as ([s h1] & E1 & E).
    apply bind_ok in E as (ns & Ens & E). apply bind_ok in E as ([vss h2] & E2 & E). injection E as <- <-.
    assert (F : Forall (can_give h0 parent) s) by (eapply IH; [exact K|lia|exact E1]).
    destruct g0; cbn in Sg; try easy. destruct Sg as (-> & ->).
    destruct (heap_calls_can (gens_kept h0) (can_give h0 elem) (fun h n => heap_generate fuel h elem n)) with (ns := ns) (h := h1) (vss := vss) (h' := h2) as [_ F2].
    + cbv beta. intros ha n x hb Ha Hb. split; [eapply gens_kept_trans; [exact Ha|eapply heap_generate_kept; eauto]|].
      eapply IH; [exact Ha|lia|exact Hb].
    + eapply gens_kept_trans; [exact K|eapply heap_generate_kept; eauto].
    + exact E2.
    + destruct s as [|n s].
      { cbn in Ens. injection Ens as <-. cbn in E2. injection E2 as <- <-. constructor. }
      apply Forall_map. eapply Forall_impl; [|exact F2]. cbv beta. intros l Hlst. inversion F; subst. eapply give_bulk; eauto.
Qed.

Lemma gen_can h0 h i size vs h' : gens_kept h0 h -> i < length h0 -> gen_generate h i size = Ok (vs, h') -> Forall (can_give h0 i) vs.
Proof. apply heap_can. Qed.

Lemma slices_In {A} (P : A -> Prop) : forall ns l, Forall P l -> Forall (Forall P) (slices ns l).
Proof.
  induction ns as [|n ns IH]; intros l F; cbn; [constructor|]. constructor.
  - rewrite <- (firstn_skipn n l) in F. apply Forall_app in F. tauto.
  - apply IH. rewrite <- (firstn_skipn n l) in F. apply Forall_app in F. tauto.
Qed.

Lemma random_values_can h0 h i n q vs h' : gens_kept h0 h -> i < length h0 -> random_values h i n q = Ok (vs, h') ->
  match q with
  | None => Forall (can_give h0 i) vs
  | Some _ => Forall (fun v => exists us, v = VList us /\ Forall (can_give h0 i) us) vs
  end.
Proof.
  intros K Hi. unfold random_values. destruct q as [qs|]; [|now apply gen_can].
  intros E. apply bind_ok in E as (ns & _ & E). apply bind_ok in E as ([fl h1] & E1 & E).
  destruct (existsb _ ns); [discriminate|]. injection E as <- _.
  apply Forall_map. eapply Forall_impl; [|apply slices_In; eapply gen_can; eauto]. cbv beta. eauto.
Qed.
