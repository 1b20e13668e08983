(** select_many with pop when several requests name one "from": what disappears is what
    exactly one of the requests of each "from" was given (relationship.py:330-342 keeps the
    first group of indices only). *)
From Verif Require Import Base BaseFacts Rng RngFacts Utils UtilsFacts Relationship
  RelationshipFacts RelationshipSelect RelationshipMany RelationshipGiven.
From Coq Require Import Permutation.

(** The first pick of each "from". *)
Fixpoint firsts (seen : list val) (out : list pick) : list pick :=
  match out with
  | [] => []
  | p :: l => if mem (p_from p) seen then firsts seen l else p :: firsts (p_from p :: seen) l
  end.

Lemma firsts_In out : forall seen p, In p (firsts seen out) -> In p out /\ ~ In (p_from p) seen.
Proof.
  induction out as [|p out IH]; intros seen p' H; cbn in *; [destruct H|].
  destruct (mem (p_from p) seen) eqn:E.
  - apply IH in H as [H1 H2]. auto.
  - destruct H as [<-|H]; [split; [now left|now apply mem_not_In]|]. apply IH in H as [H1 H2]. split; [now right|]. intros Hc. apply H2. now right.
Qed.
Lemma firsts_NoDup out : forall seen, NoDup (map p_from (firsts seen out)).
Proof.
  induction out as [|p out IH]; intros seen; cbn; [constructor|].
  destruct (mem (p_from p) seen); [apply IH|]. cbn. constructor; [|apply IH].
  intros H. apply in_map_iff in H as (p' & E & H). apply firsts_In in H as [_ H]. apply H. left. now symmetry.
Qed.
Lemma firsts_all out : forall seen p, In p out -> In (p_from p) seen \/ In (p_from p) (map p_from (firsts seen out)).
Proof.
  induction out as [|p out IH]; intros seen p' H; cbn in *; [destruct H|].
  destruct (mem (p_from p) seen) eqn:E.
  - destruct H as [<-|H]; [left; now apply mem_In|]. apply IH. exact H.
  - destruct H as [<-|H]; [right; now left|]. destruct (IH (p_from p :: seen) p' H) as [[Hc|Hc]|Hc]; cbn; auto.
Qed.
Lemma firsts_idx out : forall seen f, first_idx (firsts seen out) f = if mem f seen then [] else first_idx out f.
Proof.
  unfold first_idx. induction out as [|p out IH]; intros seen f; cbn; [now destruct (mem f seen)|].
  destruct (mem (p_from p) seen) eqn:E.
  - rewrite IH. destruct (mem f seen) eqn:Ef; [reflexivity|]. destruct (keqb_spec (p_from p) f) as [Eq|]; [congruence|reflexivity].
  - cbn. destruct (keqb_spec (p_from p) f) as [<-|Hn].
    + now rewrite E.
    + rewrite IH. assert (Em : mem f (p_from p :: seen) = mem f seen).
      { destruct (mem f seen) eqn:Ef; [apply mem_In; right; now apply mem_In|]. apply mem_not_In. intros [Hc|Hc]; [congruence|]. apply mem_not_In in Ef. auto. }
      now rewrite Em.
Qed.

Lemma Forall2_choose {A B} (R : A -> B -> Prop) l : Forall (fun b => exists a, R a b) l -> exists l', Forall2 R l' l.
Proof.
  induction 1 as [|b l (a & Ha) _ (l' & IH)]; [exists []; constructor|]. exists (a :: l'). now constructor.
Qed.

Lemma select_many_pop_each r reqs disc rows r' :
  wf_grouped (grouped r) -> NoDup (map q_idx reqs) ->
  select_many r reqs true disc = Ok (rows, r') ->
  wf_grouped (grouped r') /\
  exists served removed,
    incl served (known_reqs reqs) /\ NoDup (map q_from served) /\ (forall q, In q served -> given rows (q_idx q) <> []) /\
    (forall q, In q (known_reqs reqs) -> given rows (q_idx q) <> [] -> In (q_from q) (map q_from served)) /\
    Permutation (contents (grouped r)) (contents (grouped r') ++ removed) /\
    Permutation (map fst removed) (flat_map (fun q => map (pair (q_from q)) (given rows (q_idx q))) served).
Proof.
  intros Hw Hd H. destruct (select_many_spec _ _ _ _ _ _ Hw Hd H)
    as (full & out & Hk & Hg & Eo & Er & Egr & _).
  set (extra := if negb disc && negb (length out =? length reqs)
                then index_difference (map q_idx reqs) (map p_req out) else []).
  assert (Er' : rows = map (fun p => (p_req p, p_tos p)) out ++ map (fun i => (i, [])) extra).
  { rewrite Er. unfold extra. now destruct (negb disc && negb (length out =? length reqs)). }
  set (g := grouped r) in *.
  pose proof (full_forall2 _ _ _ Hg) as HF.
  pose proof (full_reqs_perm _ _ _ Hk Hg) as Hperm.
  set (picks := flat_map snd full) in *.
  assert (Hpk : forall p, In p out -> In p picks).
  { intros p Hp. rewrite Eo in Hp. now apply filter_In in Hp. }
  assert (Hq : forall p, In p picks -> exists q, In q (known_reqs reqs) /\ piece_ok g q p).
  { assert (Hx : forall p, In p picks -> exists q, In q (flat_map (fun x => snd (fst x)) full) /\ piece_ok g q p).
    { clear -HF. induction HF as [|q p qs ps Hp _ IH]; intros p' Hi; [destruct Hi|].
      destruct Hi as [<-|Hi]; [exists q; split; [now left|exact Hp]|]. destruct (IH _ Hi) as (q' & H1 & H2). exists q'. split; [now right|exact H2]. }
    intros p Hp. destruct (Hx p Hp) as (q & H1 & H2). exists q. split; [exact (Permutation_in _ Hperm H1)|exact H2]. }
  assert (Hgiven : forall p, In p picks -> given rows (p_req p) = p_tos p).
  { intros p Hp. rewrite Er', Eo. exact (given_pick _ _ _ Hd Hk Hg extra p Hp). }
  set (fs := firsts [] out).
  assert (Hfs : forall p, In p fs -> In p out) by (intros p Hp; now apply firsts_In in Hp).
  destruct (Forall2_choose (fun q p => In q (known_reqs reqs) /\ piece_ok g q p) fs) as (served & HS).
  { apply Forall_forall. intros p Hp. apply Hq, Hpk, Hfs, Hp. }
  assert (Hlen : Forall (fun p => length (p_tos p) = length (p_idx p)) fs).
  { apply Forall_forall. intros p Hp. destruct (Hq p (Hpk _ (Hfs _ Hp))) as (q & _ & _ & _ & _ & Ht). now apply take_length in Ht. }
  destruct (remove_selected_many_spec g out Hw) as [Hw' Hv].
  rewrite Egr. split; [easy|].
  assert (Efrom : map q_from served = map p_from fs).
  { clear -HS. induction HS as [|q p qs ps [_ Hp] _ IH]; cbn; [reflexivity|]. f_equal; [symmetry; apply Hp|exact IH]. }
  assert (Hnd : NoDup (map p_from fs)) by apply firsts_NoDup.
  exists served, (flat_map (row_triple g) (flat_map pick_sels fs)). repeat split.
  - intros q Hqs. clear -HS Hqs. induction HS as [|q' p qs ps [Hi _] _ IH]; [destruct Hqs|]. destruct Hqs as [<-|Hqs]; auto.
  - rewrite Efrom. exact Hnd.
  - intros q Hqs. assert (Hp : exists p, In p fs /\ piece_ok g q p).
    { clear -HS Hqs. induction HS as [|q' p qs ps [_ Hp] _ IH]; [destruct Hqs|].
      destruct Hqs as [<-|Hqs]; [exists p; split; [now left|exact Hp]|]. destruct (IH Hqs) as (p' & H1 & H2). exists p'. split; [now right|exact H2]. }
    destruct Hp as (p & Hp & E1 & _ & _ & Ht). apply Hfs in Hp. rewrite <- E1, (Hgiven p (Hpk _ Hp)).
    rewrite Eo in Hp. apply filter_In in Hp as [_ Hp]. unfold nonempty_pick in Hp. apply take_length in Ht. destruct (p_idx p); [discriminate Hp|]. destruct (p_tos p); [discriminate Ht|discriminate].
  - intros q Hqk Hgv. rewrite Efrom.
    assert (Hp : exists p, In p picks /\ piece_ok g q p).
    { assert (Hqf : In q (flat_map (fun x => snd (fst x)) full)) by exact (Permutation_in _ (Permutation_sym Hperm) Hqk).
      clear -HF Hqf. induction HF as [|q' p qs ps Hp _ IH]; [destruct Hqf|].
      destruct Hqf as [<-|Hqf]; [exists p; split; [now left|exact Hp]|]. destruct (IH Hqf) as (p' & H1 & H2). exists p'. split; [now right|exact H2]. }
    destruct Hp as (p & Hp & Hpo). destruct Hpo as (E1 & E2 & _ & Ht). rewrite <- E1, (Hgiven p Hp) in Hgv. rewrite <- E2.
    destruct (firsts_all out [] p) as [[]|Hc]; [|exact Hc].
    rewrite Eo. apply filter_In. split; [exact Hp|]. unfold nonempty_pick. apply take_length in Ht. destruct (p_idx p); [|reflexivity].
    exfalso. apply Hgv. destruct (p_tos p); [reflexivity|discriminate Ht].
  - apply remove_conserves; [easy|easy| | |].
    + intros f. rewrite Hv. f_equal. rewrite <- first_idx_distinct by assumption. unfold fs. now rewrite firsts_idx.
    + apply Forall_flat_map. apply Forall_forall. intros p Hp. destruct (Hq p (Hpk _ (Hfs _ Hp))) as (q & _ & Hpo). exact (pick_sels_valid _ _ _ Hpo).
    + intros f. rewrite <- first_idx_distinct by assumption.
      unfold first_idx. destruct (filter (fun p => keqb (p_from p) f) fs) as [|p l] eqn:E; [constructor|].
      assert (Hp : In p fs).
      { assert (In p (p :: l)) as Hi by now left. rewrite <- E in Hi. now apply filter_In in Hi. }
      apply Hfs, Hpk in Hp. unfold picks in Hp.
      apply in_flat_map in Hp as ([[f' qs] ps] & Hin & Hp). rewrite Forall_forall in Hg.
      destruct (Hg _ Hin) as [_ (_ & Hnd' & _)]. cbn in Hp. clear -Hnd' Hp.
      induction ps as [|p' ps IH]; [easy|]. cbn in Hnd'. destruct Hp as [->|Hp].
      * now apply NoDup_app_l in Hnd'.
      * apply NoDup_app_r in Hnd'. auto.
  - cut (map fst (flat_map (row_triple g) (flat_map pick_sels fs)) = flat_map (fun q => map (pair (q_from q)) (given rows (q_idx q))) served); [intros E; rewrite E; apply Permutation_refl|].
    assert (Hgf : forall p, In p fs -> given rows (p_req p) = p_tos p) by (intros p Hp; apply Hgiven, Hpk, Hfs, Hp).
    clearbody fs. clear -HS Hgf. induction HS as [|q p qs ps [_ Hpo] _ IH]; [reflexivity|]; cbn [flat_map].
    rewrite flat_map_app, map_app. f_equal.
    + rewrite (pick_pairs _ _ _ Hpo). destruct Hpo as (Er & Ef & _).
      rewrite <- Er, Hgf by now left. now rewrite Ef.
    + apply IH. intros; apply Hgf. now right.
Qed.

(** In terms of stored relations. *)
From Verif Require Import SpecRelationship RelationshipProps.
Lemma select_many_pops_each r reqs disc rows r' :
  reachable r -> NoDup (map q_idx reqs) -> select_many r reqs true disc = Ok (rows, r') ->
  exists served removed,
    incl served reqs /\ NoDup (map q_from served) /\ (forall q, In q served -> given_to (q_idx q) rows <> []) /\
    (forall q, In q reqs -> given_to (q_idx q) rows <> [] -> In (q_from q) (map q_from served)) /\
    Permutation (stored r) (stored r' ++ removed) /\
    Permutation (map fst removed) (flat_map (fun q => map (pair (q_from q)) (given_to (q_idx q) rows)) served).
Proof.
  intros Hr Hd H. pose proof (reachable_wf _ Hr) as Hw.
  destruct (select_many_pop_each _ _ _ _ _ Hw Hd H) as (_ & served & removed & A & B & G & C & D & E).
  exists served, removed. split; [intros q Hq; apply A in Hq; now apply filter_In in Hq|]. split; [exact B|]. split; [intros q Hq; rewrite given_to_given; exact (G _ Hq)|]. split; [|split].
  - intros q Hq Hg. destruct (is_na (q_from q)) eqn:En.
    + exfalso. apply Hg. refine (select_many_na _ _ _ _ _ _ Hr Hd H q Hq _). now destruct (q_from q).
    + apply C; [apply filter_In; split; [exact Hq|now rewrite En]|]. now rewrite <- given_to_given.
  - rewrite !stored_contents. exact D.
  - rewrite E. apply Permutation_refl', flat_map_ext. intros q. now rewrite given_to_given.
Qed.
