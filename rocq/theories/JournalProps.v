(** Journals. *)
From Verif Require CircusFacts.
From Verif Require Import Base BaseFacts Rng Utils UtilsFacts Relationship RelationshipFacts SpecRelationship RelationshipProps Frame Gens Clock SpecClock ClockProps
  Attribute SpecAttribute AttributeFacts World Story Ops OpsFacts Fs Helpers HelpersFacts Circus SpecStory StoryFacts StoryExec StoryProps SpecOps OpsProps OpsColumns OpsMore
  SpecWorld WorldProps SpecPopulation GensKept SpecLocal LocalFacts LocalOps LocalCalls CircusProps GeographyLog SpecCircus SpecSupply SupplyFacts SupplyProps
  PopProps ActFacts SpecLedger LedgerProps SpecRecords RecordsGens RecordsProps SpecNow NowProps SpecJournal.

Lemma entries_records b L : entries b L = map (fun r : record => (r (who b), r (what b))) (records (log_of b) L).
Proof.
  unfold entries, records. induction (frames_of (log_of b) L) as [|d l IH]; [reflexivity|]. cbn [flat_map]. rewrite map_app, IH. f_equal.
  unfold listed. now rewrite map_map.
Qed.

Section Journal.
  Context (x : nat) (b : book).
  Lemma rewrites_adds o new b' : rewrites x b o new b' -> adds o new /\ NoDup new /\ forall id cols ex, ~ part_of (OpFieldLogger id cols ex) o.
  Proof. intros []. split; [reflexivity|]. split; [constructor|]. intros id cols ex K; inversion K. Qed.

  (** [w'] holds what [L] tells. *)
  Definition rewritten (w : world) (L : logs) (w' : world) : Prop :=
    single_valued w x -> single_valued w' x /\
    forall k v, holds w' x k v <->
      (exists e1 e2, entries b L = e1 ++ (k, v) :: e2 /\ ~ In k (map fst e2)) \/ ~ In k (map fst (entries b L)) /\ holds w x k v.

  Lemma rewritten_same w w' : same (OAttribute x) w w' -> rewritten w [] w'.
  Proof.
    intros E Sv. cbn in E. split; [unfold single_valued; now rewrite E|]. intros k v. unfold holds. rewrite E. cbn. split; [tauto|].
    intros [(e1 & e2 & C & _)|[_ H]]; [destruct e1; discriminate|exact H].
  Qed.
  Lemma rewritten_trans w L1 w1 L2 w2 : rewritten w L1 w1 -> rewritten w1 L2 w2 -> rewritten w (L1 ++ L2) w2.
  Proof.
    intros B1 B2 Sv. destruct (B1 Sv) as [S1 H1]. destruct (B2 S1) as [S2 H2]. split; [exact S2|]. intros k v. rewrite H2, H1, entries_app, map_app. clear.
    set (a := entries b L1). set (c := entries b L2). split.
    - intros [(e1 & e2 & E & N)|[N [(e1 & e2 & E & N')|[N' H]]]].
      + left. exists (a ++ e1), e2. rewrite E, app_assoc. auto.
      + left. exists e1, (e2 ++ c). split; [rewrite E, <- app_assoc; reflexivity|]. rewrite map_app. intros K. apply in_app_or in K. tauto.
      + right. split; [|exact H]. intros K. apply in_app_or in K. tauto.
    - intros [(e1 & e2 & E & N)|[N H]].
      + assert (K : (exists e, c = e ++ (k, v) :: e2) \/ exists e, a = e1 ++ (k, v) :: e /\ e2 = e ++ c).
        { clear N. revert e1 E. generalize a. intros l. induction l as [|y l IH]; intros e1 E; cbn in E; [left; eauto|].
          destruct e1 as [|z e1]; cbn in E.
          - injection E as <- E. right. exists l. auto.
          - injection E as <- E. destruct (IH _ E) as [K|(e & K1 & K2)]; [now left|right]. exists e. split; [cbn; congruence|exact K2]. }
        destruct K as [(e & K)|(e & K1 & K2)]; [left; eauto|right]. rewrite K2, map_app in N. split; [intros C; apply N, in_or_app; now right|left].
        exists e1, e. split; [exact K1|]. intros C. apply N, in_or_app. now left.
      + right. split; [intros K; apply N, in_or_app; now right|right]. split; [intros K; apply N, in_or_app; now left|exact H].
  Qed.
  Lemma rewritten_ext w L L' w' : (forall b', In b' [b] -> entries b' L = entries b' L') -> rewritten w L w' -> rewritten w L' w'.
  Proof. intros E. unfold rewritten. rewrite (E b); [auto|now left]. Qed.

  Lemma one_last {A} (l : list (A * val)) k v : NoDup (map fst l) -> (In (k, v) l <-> exists e1 e2, l = e1 ++ (k, v) :: e2 /\ ~ In k (map fst e2)).
  Proof.
    intros N. split.
    - intros H. apply in_split in H as (e1 & e2 & ->). exists e1, e2. split; [reflexivity|]. rewrite map_app in N. cbn in N. apply NoDup_remove_2 in N.
      intros K. apply N, in_or_app. now right.
    - intros (e1 & e2 & -> & _). apply in_or_app. right. now left.
  Qed.

  Lemma rewritten_once w L w' : entered_once (OAttribute x) [b] (rewrites x b) w w' L ->
    rewritten w L w' /\ (single_valued w x -> NoDup (map fst (entries b L))).
  Proof.
    intros (o & new & b' & d1 & d2 & l1 & w1 & w2 & T & Hb & Rd & Hnew & S1 & H & S2 & Rd2 & Eb & Eo & _). destruct T. cbn in S1, S2.
    assert (G : single_valued w x -> NoDup (map fst (entries b L)) /\ single_valued w' x /\
      forall k v, holds w' x k v <-> In (k, v) (entries b L) \/ ~ In k (map fst (entries b L)) /\ holds w x k v).
    { intros Sv. assert (Sv1 : single_valued w1 x) by (unfold single_valued; now rewrite S1).
      destruct (act_attr_update _ _ _ _ _ _ _ _ H Sv1) as (-> & _ & _ & Sv2 & Nd & Hh). rewrite Eb. split; [exact Nd|].
      split; [unfold single_valued; now rewrite S2|]. intros k v. unfold holds at 1. rewrite S2. fold (holds w2 x k v). rewrite Hh. unfold holds. now rewrite S1. }
    split; [|intros Sv; apply (proj1 (G Sv))]. intros Sv. destruct (G Sv) as (Nd & Sv2 & Hh). split; [exact Sv2|]. intros k v. rewrite Hh.
    now rewrite (one_last _ _ _ Nd).
  Qed.
End Journal.

Lemma journal_read w x b hs L w' : journal_of w x b -> emits w hs L w' -> rewritten x b w L w'.
Proof.
  intros [Sv K] H.
  refine (emits_entered w (OAttribute x) [b] (rewrites x b) (rewrites_adds x b) _ K _
      (rewritten x b) (rewritten_same x b) (rewritten_trans x b) (rewritten_ext x b) _ hs w L w' (books_inv_start w) H).
  - cbn. repeat constructor. intros [].
  - right; eauto.
  - intros v l v' E. now apply rewritten_once.
Qed.

(** ** The values before *)
Section Before.
  Context (w0 : world) (x : nat) (b : book) (was : string).
  Hypothesis J : journal_of w0 x b.
  Hypothesis B : tells_before w0 x b was.

  Definition continued (w : world) (L : logs) (w' : world) : Prop :=
    single_valued w x -> single_valued w' x /\
    forall k v, single k -> holds w x k v -> exists v', holds w' x k v' /\
      let rs := records_about b k (records (log_of b) L) in
      v :: map (fun r : record => r (what b)) rs = map (fun r : record => r was) rs ++ [v'].

  Lemma continued_same w w' : same (OAttribute x) w w' -> continued w [] w'.
  Proof.
    intros E Sv. cbn in E. split; [unfold single_valued; now rewrite E|]. intros k v _ H. exists v. split; [|reflexivity]. unfold holds. now rewrite E.
  Qed.
  Lemma continued_trans w L1 w1 L2 w2 : continued w L1 w1 -> continued w1 L2 w2 -> continued w (L1 ++ L2) w2.
  Proof.
    intros C1 C2 Sv. destruct (C1 Sv) as [S1 H1]. destruct (C2 S1) as [S2 H2]. split; [exact S2|]. intros k v Hk Hv.
    destruct (H1 k v Hk Hv) as (v1 & Hv1 & E1). destruct (H2 k v1 Hk Hv1) as (v2 & Hv2 & E2). exists v2. split; [exact Hv2|]. cbv zeta in *.
    rewrite records_app.
    assert (F : forall p q, records_about b k (p ++ q) = records_about b k p ++ records_about b k q) by (intros; apply filter_app).
    rewrite F, !map_app, <- app_assoc, <- E2. change (v :: ?a ++ ?c) with ((v :: a) ++ c). rewrite E1, <- app_assoc. reflexivity.
  Qed.

  Lemma continued_exec a w l w1 : since w0 w -> books_inv w0 w -> execute a w = (Ok l, w1) -> continued w l w1.
  Proof.
    intros S I H. pose proof (exec_now w0 w (log_of b) a l w1 (proj1 B) S H) as T.
    assert (Nd : NoDup (map log_of [b])) by (cbn; repeat constructor; intros []).
    destruct (exec_entered w0 (OAttribute x) [b] (rewrites x b) (rewrites_adds x b) Nd (proj2 J) (or_intror (or_introl (ex_intro _ x eq_refl))) a w l w1 I H) as [[Sm En]|Once].
    - specialize (En b (or_introl eq_refl)). rewrite entries_records in En. apply map_eq_nil in En.
      intros Sv. destruct (continued_same w w1 Sm Sv) as [S1 H1]. split; [exact S1|]. intros k v Hk Hv. rewrite En. exact (H1 k v Hk Hv).
    - destruct (rewritten_once x b w l w1 Once) as [R Nk]. intros Sv. destruct (R Sv) as [S1 H1]. specialize (Nk Sv). split; [exact S1|]. intros k v Hk Hv.
      assert (W : forall r, In r (records (log_of b) l) -> r (who b) = k -> r was = v).
      { intros r Hr Ek. rewrite Forall_forall in T. destruct (T _ Hr) as (s & before & names & ex & afterwards & row & n & Es & Eo & Hc & _ & Ht & _).
        destruct (story_then w0 w a S s Es) as (s0 & Es0 & St). pose proof St as (_ & _ & _ & _ & _ & _ & _ & To & _). rewrite To in Eo.
        destruct (proj2 B a s0 _ _ _ _ Es0 Eo) as (-> & Hn & e & p & attr & sel & po & lt & Eb & Hin & Un & Hpo & Hx).
        assert (C : forall c, names = [] \/ In c names -> r c = row c) by (intros c Hcn; exact (Hc c Hcn)).
        rewrite C in Ek by tauto. rewrite C by tauto. specialize (Ht _ _ _ Eb). unfold tells_now in Ht. cbn [tells_given] in Ht.
        destruct Hv as (t & Ex & Hv). destruct Sv as (t' & Ex' & Nt). assert (t' = t) by congruence. subst t'.
        assert (Hpo' : exists po', nth_error (w_pops w) p = Some po' /\ dget attr (p_attrs po') = Some x).
        { destruct (sc_shape _ _ S) as (_ & _ & _ & Hp & _). specialize (Hp p). rewrite Hpo in Hp. destruct (nth_error (w_pops w) p) as [po'|]; [|discriminate].
          exists po'. split; [reflexivity|]. cbn in Hp. congruence. }
        destruct Hpo' as (po' & Hpo' & Hx').
        assert (L : looked_up t (row (who b)) (row was)).
        { refine (Ht attr was po' x t Hin Hpo' Hx' Ex _). intros o Ho Ch. apply (Un o Ho). eapply changes_shape; [apply shape_sym; exact (sc_shape _ _ S)|exact Ch]. }
        rewrite Ek in L. apply In_dget in Hv; [|exact Nt]. destruct Hk as [_ Hl]. destruct k; cbn in L; try congruence. }
      set (rs := records (log_of b) l) in *. cbv zeta. rewrite entries_records in Nk, H1. rewrite map_map in Nk, H1. cbn [fst] in Nk, H1.
      change (map (fun r : record => (r (who b), r (what b))) (records (log_of b) l)) with (map (fun r : record => (r (who b), r (what b))) rs) in H1.
      change (map (fun r : record => r (who b)) (records (log_of b) l)) with (map (fun r : record => r (who b)) rs) in *.
      clearbody rs. clear T Once R.
      assert (F : (records_about b k rs = [] /\ ~ In k (map (fun r : record => r (who b)) rs)) \/
                  exists r, records_about b k rs = [r] /\ In r rs /\ r (who b) = k).
      { clear - Nk. unfold records_about. induction rs as [|r rs IH]; [left; cbn; tauto|]. cbn [filter map] in *. inversion Nk as [|? ? Hn Hr]; subst.
        destruct (val_eqb (r (who b)) k) eqn:E.
        - apply val_eqb_eq in E. right. exists r. split; [|split; [now left|exact E]]. f_equal.
          destruct (IH Hr) as [[K _]|(r' & _ & Hin & Ek)]; [exact K|]. exfalso. apply Hn. rewrite E, <- Ek. apply in_map_iff. now exists r'.
        - assert (Nk' : r (who b) <> k) by (intros K; apply val_eqb_eq in K; congruence).
          destruct (IH Hr) as [[K1 K2]|(r' & K & Hin & Ek)]; [left|right; exists r'; split; [exact K|split; [now right|exact Ek]]].
          split; [exact K1|]. intros [C|C]; auto. }
      destruct F as [[-> Hn]|(r & -> & Hin & Ek)].
      + exists v. split; [|reflexivity]. apply H1. right. auto.
      + exists (r (what b)). split; [|cbn; now rewrite (W r Hin Ek)]. apply H1. left. rewrite <- Ek. apply one_last; [rewrite map_map; exact Nk|].
        apply in_map_iff. now exists r.
  Qed.

  Lemma continued_history hs : forall w L w', since w0 w -> books_inv w0 w -> emits w hs L w' -> continued w L w'.
  Proof.
    induction hs as [|h hs IH]; intros w L w' S I H.
    - inversion H; subst. apply continued_same, same_refl.
    - inversion H as [|y1 a l w1 y5 L' y7 Hx He|y1 y2 w1 y4 y5 y6 Hno Hh He]; subst.
      + pose proof (books_inv_step w0 (HExec a) w I) as I1. cbn [happen] in I1. rewrite Hx in I1. cbn [snd] in I1.
        apply (continued_trans _ l w1); [exact (continued_exec _ _ _ _ S I Hx)|]. apply IH; auto. exact (exec_since w0 _ _ _ _ S Hx).
      + pose proof (books_inv_step w0 h w I) as I1. rewrite Hh in I1. cbn [snd] in I1.
        apply (continued_trans w [] w1 L w'); [|apply IH; auto; exact (other_since w0 _ _ _ Hno Hh S)].
        apply continued_same. destruct (other_fields h w w1 Hno Hh) as (_ & _ & _ & Ea). cbn. now rewrite Ea.
  Qed.
End Before.

Lemma journal_continues w x b was hs L w' : journal_of w x b -> tells_before w x b was -> Forall reachable (w_rels w) -> emits w hs L w' ->
  forall k v, single k -> holds w x k v -> exists v', holds w' x k v' /\
    let rs := records_about b k (records (log_of b) L) in
    v :: map (fun r : record => r (what b)) rs = map (fun r : record => r was) rs ++ [v'].
Proof.
  intros J B R H. exact (proj2 (continued_history w x b was J B hs w L w' (since_start w R) (books_inv_start w) H (proj1 J))).
Qed.
