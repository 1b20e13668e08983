(** Populations that keep what a log tells. *)
From Verif Require CircusFacts.
From Verif Require Import Base BaseFacts Rng Utils UtilsFacts Relationship RelationshipFacts SpecRelationship RelationshipProps Frame Gens Clock SpecClock ClockProps
  Attribute SpecAttribute AttributeFacts World Story Ops OpsFacts Fs Helpers HelpersFacts Circus SpecStory StoryFacts StoryExec StoryProps SpecOps OpsProps OpsColumns OpsMore
  SpecWorld WorldProps SpecPopulation GensKept SpecLocal LocalFacts LocalOps LocalCalls CircusProps GeographyLog SpecCircus SpecSupply SupplyFacts SupplyProps
  PopProps ActFacts SpecLedger LedgerProps SpecRecords RecordsGens RecordsProps SpecNow NowProps SpecJournal JournalProps SpecArchive SavedFacts.

Section Archive.
  Context (w0 : world) (p : nat) (name : string) (x : nat) (b : book).
  Hypothesis A : archive_of w0 p name x b.

  Lemma saves_adds o new b' : saves p name b o new b' -> adds o new /\ NoDup new /\ forall id cols ex, ~ part_of (OpFieldLogger id cols ex) o.
  Proof. intros []. split; [reflexivity|]. split; [constructor|]. intros id cols ex K; inversion K. Qed.

  Lemma there w : shape w0 w -> exists po, nth_error (w_pops w) p = Some po /\ dget name (p_attrs po) = Some x /\
    forall n m a, dget n (p_attrs po) = Some a -> dget m (p_attrs po) = Some a -> n = m.
  Proof.
    intros (_ & _ & _ & K & _). specialize (K p). destruct A as ((po0 & Hp0 & Hx) & _ & Own & _). rewrite Hp0 in K.
    destruct (nth_error (w_pops w) p) as [po|] eqn:Hp; [|discriminate]. injection K as K. exists po. split; [reflexivity|]. rewrite K. split; [exact Hx|].
    intros n m a H1 H2. apply (Own n m a); exists po0; auto.
  Qed.

  Lemma last_value_split (l : list (val * val)) k v : last_value k l = Some v <-> exists e1 e2, l = e1 ++ (k, v) :: e2 /\ ~ In k (map fst e2).
  Proof.
    induction l as [|[k' v'] l IH]; cbn [last_value]; [split; [discriminate|intros (e1 & e2 & E & _); destruct e1; discriminate]|].
    destruct (last_value k l) as [u|] eqn:E.
    - rewrite IH. split; [intros (e1 & e2 & -> & N); exists ((k', v') :: e1), e2; auto|]. intros (e1 & e2 & El & N).
      destruct e1 as [|y e1]; [|injection El as <- ->; eauto]. injection El as -> -> ->. exfalso. apply N.
      destruct (proj1 IH) as (f1 & f2 & -> & _); [|rewrite map_app; apply in_or_app; right; now left].
      destruct (in_dec key_dec k (map fst e2)) as [I|I]; [contradiction|]. exfalso. clear - E I. revert u E. induction e2 as [|[k1 v1] l IHl]; cbn; [discriminate|]. intros u.
      destruct (last_value k l) as [z|] eqn:Ez; [|].
      + intros _. apply (IHl (fun K => I (or_intror K)) z eq_refl).
      + change (val_eqb k1 k) with (keqb k1 k). destruct (keqb_spec k1 k) as [->|]; [|discriminate]. intros _. apply I. now left.
    - change (val_eqb k' k) with (keqb k' k). destruct (keqb_spec k' k) as [->|Ne].
      + assert (Nk : ~ In k (map fst l)).
        { clear - E. induction l as [|[k1 v1] l IHl]; cbn in *; [tauto|]. destruct (last_value k l); [discriminate|]. change (val_eqb k1 k) with (keqb k1 k) in E.
          destruct (keqb_spec k1 k); [discriminate|]. intros [K|K]; [contradiction|now apply IHl]. }
        split; [intros [= <-]; exists [], l; auto|]. intros (e1 & e2 & El & N). destruct e1 as [|y e1]; [now injection El as ->|].
        injection El as _ El. exfalso. apply Nk. rewrite El, map_app. apply in_or_app. right. now left.
      + split; [discriminate|]. intros (e1 & e2 & El & N). destruct e1 as [|y e1]; [injection El as -> _ _; now destruct Ne|]. injection El as _ El. apply IH. eauto.
  Qed.

  (** One operation. *)
  Lemma archived_once w L w' : shape w0 w -> entered_once (OAttribute x) [b] (saves p name b) w w' L -> rewritten x b w L w'.
  Proof.
    intros Sh (o & new & b' & d1 & d2 & l1 & w1 & w2 & T & Hb & Rd & Hnew & S1 & H & S2 & Rd2 & Eb & Eo & Sw). destruct T as [copy Hc]. cbn in S1, S2. intros Sv.
    assert (Sv1 : single_valued w1 x) by (unfold single_valued; now rewrite S1).
    destruct (there w1 (shape_trans _ _ _ Sh Sw)) as (po & Hp & Hx & Inj).
    destruct (saved_values _ _ _ _ _ _ _ _ _ _ _ _ Inj Hx Hp Sv1 Hc H) as (-> & Sv2 & Hh).
    split; [unfold single_valued; now rewrite S2|]. intros k v. unfold holds at 1. rewrite S2. fold (holds w2 x k v). rewrite Hh, last_value_split, Eb. unfold holds. now rewrite S1.
  Qed.

  Definition enlisted (w : world) (L : logs) (w' : world) : Prop := forall i, member w' p i <-> member w p i \/ In i (map fst (entries b L)).
  Lemma enlisted_once w L w' : shape w0 w -> entered_once (OPopulation p) [b] (saves p name b) w w' L -> enlisted w L w'.
  Proof.
    intros Sh (o & new & b' & d1 & d2 & l1 & w1 & w2 & T & Hb & Rd & Hnew & S1 & H & S2 & Rd2 & Eb & Eo & Sw) i. destruct T as [copy Hc]. cbn in S1, S2.
    destruct (there w1 (shape_trans _ _ _ Sh Sw)) as (po & Hp & _). destruct (saved_members _ _ _ _ _ _ _ _ _ Hp H) as (-> & M).
    unfold member at 1. rewrite S2. fold (member w2 p i). rewrite M, Eb. unfold member. rewrite S1. unfold listed, column_of. rewrite map_map. reflexivity.
  Qed.

  Lemma one_book : NoDup (map log_of [b]).
  Proof. cbn. repeat constructor. intros []. Qed.

  Lemma archive_history hs : forall w L w', books_inv w0 w -> emits w hs L w' -> rewritten x b w L w' /\ enlisted w L w'.
  Proof.
    assert (Zero : forall w w', same (OPopulation p) w w' -> enlisted w [] w').
    { intros w w' E i. cbn in E. unfold member. rewrite E. cbn. tauto. }
    assert (Trans : forall w L1 w1 L2 w2, enlisted w L1 w1 -> enlisted w1 L2 w2 -> enlisted w (L1 ++ L2) w2).
    { intros w L1 w1 L2 w2 E1 E2 i. rewrite (E2 i), (E1 i), entries_app, map_app, in_app_iff. tauto. }
    induction hs as [|h hs IH]; intros w L w' I H.
    - inversion H; subst. split; [apply rewritten_same, same_refl|apply Zero, same_refl].
    - inversion H as [|y1 a l w1 y5 L' y7 Hx He|y1 y2 w1 y4 y5 y6 Hno Hh He]; subst.
      + pose proof (books_inv_step w0 (HExec a) w I) as I1. cbn [happen] in I1. rewrite Hx in I1. cbn [snd] in I1.
        destruct (IH _ _ _ I1 He) as [R2 M2]. destruct A as (_ & _ & _ & Kb). split.
        * apply (rewritten_trans x b w l w1 L' w'); [|exact R2].
          destruct (exec_entered w0 (OAttribute x) [b] (saves p name b) saves_adds one_book (fun i s Es => Kb i s (OAttribute x) Es (or_intror (or_introl eq_refl))) (or_intror (or_introl (ex_intro _ x eq_refl))) a w l w1 I Hx) as [[Sm En]|Once].
          -- apply (rewritten_ext x b w [] l w1); [intros b' Hb'; now rewrite (En b' Hb')|now apply rewritten_same].
          -- exact (archived_once _ _ _ (proj1 I) Once).
        * apply (Trans w l w1 L' w'); [|exact M2].
          destruct (exec_entered w0 (OPopulation p) [b] (saves p name b) saves_adds one_book (fun i s Es => Kb i s (OPopulation p) Es (or_introl eq_refl)) (or_intror (or_intror (or_introl (ex_intro _ p eq_refl)))) a w l w1 I Hx) as [[Sm En]|Once].
          -- intros i. rewrite (Zero _ _ Sm i), (En b (or_introl eq_refl)). reflexivity.
          -- exact (enlisted_once _ _ _ (proj1 I) Once).
      + pose proof (books_inv_step w0 h w I) as I1. rewrite Hh in I1. cbn [snd] in I1. destruct (IH _ _ _ I1 He) as [R2 M2]. split.
        * apply (rewritten_trans x b w [] w1 L w'); [|exact R2]. apply rewritten_same. destruct (other_fields h w w1 Hno Hh) as (_ & _ & _ & Ea). cbn. now rewrite Ea.
        * apply (Trans w [] w1 L w'); [|exact M2]. apply Zero. destruct A as (_ & _ & _ & Kb).
          exact (other_happening w0 (OPopulation p) [b] (saves p name b) (fun i s Es => Kb i s (OPopulation p) Es (or_introl eq_refl)) (or_intror (or_intror (or_introl (ex_intro _ p eq_refl)))) h w w1 Hno Hh).
  Qed.
End Archive.

Lemma archive_tells w p name x b hs L w' : archive_of w p name x b -> emits w hs L w' ->
  (forall i, member w' p i <-> member w p i \/ exists r : record, In r (records (log_of b) L) /\ r (who b) = i) /\
  single_valued w' x /\
  forall k v, holds w' x k v <->
    (exists before (r : record) afterwards, records (log_of b) L = before ++ r :: afterwards /\ r (who b) = k /\ r (what b) = v /\ forall r' : record, In r' afterwards -> r' (who b) <> k) \/
    (forall r : record, In r (records (log_of b) L) -> r (who b) <> k) /\ holds w x k v.
Proof.
  intros A H. destruct (archive_history w p name x b A hs w L w' (books_inv_start w) H) as [R M].
  split; [|destruct (R (proj1 (proj2 A))) as [S' V]; split; [exact S'|]].
  - intros i. rewrite (M i), entries_records, map_map. cbn [fst]. rewrite in_map_iff. firstorder.
  - intros k v. rewrite V, entries_records, map_map. cbn [fst]. generalize (records (log_of b) L) as rs. clear. intros rs.
    assert (E1 : (exists e1 e2, map (fun r : record => (r (who b), r (what b))) rs = e1 ++ (k, v) :: e2 /\ ~ In k (map fst e2)) <->
      exists before (r : record) afterwards, rs = before ++ r :: afterwards /\ r (who b) = k /\ r (what b) = v /\ forall r' : record, In r' afterwards -> r' (who b) <> k).
    { split.
      - intros (e1 & e2 & E & N). apply map_eq_app in E as (r1 & r2 & -> & E1 & E2). destruct r2 as [|r r2]; [discriminate|]. injection E2 as E2 E3 <-.
        exists r1, r, r2. repeat split; auto. intros r' Hr' K. apply N. rewrite map_map. apply in_map_iff. now exists r'.
      - intros (r1 & r & r2 & -> & <- & <- & N). exists (map (fun r : record => (r (who b), r (what b))) r1), (map (fun r : record => (r (who b), r (what b))) r2).
        rewrite map_app. split; [reflexivity|]. rewrite map_map. intros K. apply in_map_iff in K as (r' & K & Hr'). exact (N r' Hr' K). }
    rewrite E1. assert (E2 : ~ In k (map (fun r : record => r (who b)) rs) <-> forall r : record, In r rs -> r (who b) <> k).
    { rewrite in_map_iff. split; [intros N r Hr K; apply N; eauto|intros N (r & K & Hr); exact (N r Hr K)]. }
    rewrite E2. reflexivity.
Qed.
