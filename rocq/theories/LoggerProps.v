(** Loggers built from shared lists. *)
From Verif Require Import Base BaseFacts Rng Utils Relationship Frame Gens GensProps Clock Attribute World Ops Logger SpecLogger.

Lemma content_extend h a b r : a < length h ->
  content (extend h a b) r = if Nat.eqb r a then content h a ++ content h b else content h r.
Proof.
  intros Ha. unfold extend, content. destruct (Nat.eqb_spec r a) as [->|N].
  - apply nth_error_nth. now apply nth_error_set_nth_eq.
  - destruct (nth_error (set_nth a (nth a h [] ++ nth b h []) h) r) as [x|] eqn:E.
    + rewrite (nth_error_nth _ _ _ E). rewrite nth_error_set_nth_neq in E by congruence. now rewrite (nth_error_nth _ _ _ E).
    + rewrite nth_error_set_nth_neq in E by congruence. apply nth_error_None in E.
      rewrite !nth_overflow; [reflexivity|exact E|]. now rewrite set_nth_length.
Qed.

Lemma resolve_spec h a h1 r : resolve h a = (h1, r) -> (forall q, a = AList q -> q < length h) ->
  length h <= length h1 /\ r < length h1 /\ content h1 r = given h a /\ (forall q, q < length h -> content h1 q = content h q) /\
  ((exists q, a = AList q /\ r = q) \/ ((forall q, a <> AList q) /\ r = length h /\ length h < length h1)).
Proof.
  unfold resolve. destruct a as [|s|q]; intros E Hr.
  1,2: injection E as <- <-; rewrite app_length; cbn [length]; unfold content;
    (split; [lia|]); (split; [lia|]);
    (split; [rewrite app_nth2, Nat.sub_diag by lia; reflexivity|]);
    (split; [intros q Hq; now rewrite app_nth1 by exact Hq|]); right; (split; [easy|]); split; lia.
  injection E as <- <-. specialize (Hr q eq_refl). split; [lia|]. split; [exact Hr|]. split; [reflexivity|]. split; [reflexivity|].
  left. exists q. auto.
Qed.

Lemma given_same h h1 n a : (forall r, a = AList r -> r < n) -> (forall r, r < n -> a = AList r -> content h1 r = content h r) ->
  given h1 a = given h a.
Proof. intros Hr H. destruct a as [|s|r]; [reflexivity|reflexivity|]. cbn. apply H; auto. Qed.

Lemma new_logger_spec h n a h1 x : n <= length h -> lists_below n a -> (forall r, la_exploded a = AList r -> la_cols a <> AList r) ->
  new_logger h a = (h1, x) ->
  length h <= length h1 /\ lg_id x = la_id a /\
  (forall r, r < n -> content h1 r = content h r ++ added h [a] r) /\
  (forall r, n <= r -> r < length h -> content h1 r = content h r) /\
  lg_exploded x < length h1 /\ lg_cols x < length h1 /\
  content h1 (lg_exploded x) = given h (la_exploded a) /\
  content h1 (lg_cols x) = given h (la_cols a) ++ given h (la_exploded a) /\
  ((exists r, la_exploded a = AList r /\ lg_exploded x = r) \/ n <= lg_exploded x) /\
  ((exists r, la_cols a = AList r /\ lg_cols x = r) \/ ((forall r, la_cols a <> AList r) /\ n <= lg_cols x)).
Proof.
  intros Hn (Hc & He) Hsep E. unfold new_logger in E.
  destruct (resolve h (la_exploded a)) as [h2 e] eqn:E1. destruct (resolve h2 (la_cols a)) as [h3 c] eqn:E2.
  injection E as <- <-. cbn [lg_id lg_cols lg_exploded].
  destruct (resolve_spec _ _ _ _ E1) as (L1 & R1 & C1 & K1 & D1); [intros q Hq; specialize (He q Hq); lia|].
  destruct (resolve_spec _ _ _ _ E2) as (L2 & R2 & C2 & K2 & D2); [intros q Hq; specialize (Hc q Hq); lia|].
  assert (Hce : c <> e).
  { intros ->. destruct D1 as [(q1 & A1 & ->)|(_ & -> & _)], D2 as [(q2 & A2 & B2)|(_ & B2 & _)].
    - subst q2. now apply (Hsep q1 A1).
    - lia.
    - subst q2. specialize (Hc _ A2). lia.
    - lia. }
  assert (G : given h2 (la_cols a) = given h (la_cols a)).
  { apply (given_same h h2 n); [exact Hc|]. intros r Hr _. apply K1. lia. }
  assert (X : content h3 e = given h (la_exploded a)) by (rewrite K2 by exact R1; exact C1).
  assert (Le : length (extend h3 c e) = length h3) by apply set_nth_length.
  assert (P : forall r, r < length h -> content (extend h3 c e) r = if Nat.eqb r c then content h3 c ++ content h3 e else content h r).
  { intros r Hr. rewrite content_extend by exact R2. destruct (Nat.eqb r c); [reflexivity|]. rewrite K2 by lia. apply K1. exact Hr. }
  split; [lia|]. split; [reflexivity|].
  split; [|split; [|split; [lia|split; [lia|split; [|split; [|split]]]]]].
  - intros r Hr. rewrite P by lia. unfold added. cbn [flat_map]. rewrite app_nil_r.
    destruct D2 as [(q2 & A2 & ->)|(A2 & -> & _)].
    + rewrite A2, Nat.eqb_sym. destruct (Nat.eqb_spec q2 r) as [->|_]; [|now rewrite app_nil_r].
      rewrite C2, X, G, A2. reflexivity.
    + destruct (Nat.eqb_spec r (length h2)) as [->|_]; [lia|].
      destruct (la_cols a) as [|s|q]; [now rewrite app_nil_r|now rewrite app_nil_r|]. now destruct (A2 q).
  - intros r Hr Hl. rewrite P by exact Hl. destruct (Nat.eqb_spec r c) as [->|_]; [|reflexivity].
    destruct D2 as [(q2 & A2 & ->)|(A2 & -> & _)]; [specialize (Hc _ A2); lia|lia].
  - rewrite content_extend by exact R2. destruct (Nat.eqb_spec e c) as [->|_]; [contradiction|exact X].
  - rewrite content_extend, Nat.eqb_refl by exact R2. now rewrite C2, G, X.
  - destruct D1 as [(q1 & A1 & ->)|(A1 & -> & _)]; [left; eauto|right; lia].
  - destruct D2 as [(q2 & A2 & ->)|(A2 & -> & _)]; [left; eauto|right; split; [exact A2|lia]].
Qed.

Lemma added_cons h a l r : added h (a :: l) r = added h [a] r ++ added h l r.
Proof. unfold added. cbn [flat_map]. now rewrite app_nil_r. Qed.
Lemma added_none h l r : (forall a, In a l -> la_cols a <> AList r) -> added h l r = [].
Proof.
  intros H. unfold added. induction l as [|a l IH]; [reflexivity|]. cbn [flat_map]. rewrite IH by (intros b Hb; apply H; now right).
  destruct (la_cols a) as [|s|q] eqn:E; try reflexivity. destruct (Nat.eqb_spec q r) as [->|_]; [|reflexivity].
  exfalso. apply (H a); [now left|exact E].
Qed.

Lemma Forall2_in_impl {A B} (P Q : A -> B -> Prop) l l' : (forall a b, In a l -> P a b -> Q a b) -> Forall2 P l l' -> Forall2 Q l l'.
Proof.
  intros H F. induction F as [|a b l l' Hab F IH]; constructor; [apply H; [now left|exact Hab]|].
  apply IH. intros x y Hx. apply H. now right.
Qed.

Lemma new_loggers_spec n l : forall h h' xs, n <= length h -> Forall (lists_below n) l -> separate l -> new_loggers h l = (h', xs) ->
  length h <= length h' /\
  (forall r, r < n -> content h' r = content h r ++ added h l r) /\
  (forall r, n <= r -> r < length h -> content h' r = content h r) /\
  Forall2 (fun a x => lg_id x = la_id a /\ content h' (lg_exploded x) = given h (la_exploded a) /\
    content h' (lg_cols x) = match la_cols a with
                             | AList r => content h r ++ added h l r
                             | c => given h c ++ given h (la_exploded a)
                             end) l xs.
Proof.
  induction l as [|a l IH]; intros h h' xs Hn Hl Hs E.
  - injection E as <- <-. split; [lia|]. split; [intros r _; cbn; now rewrite app_nil_r|]. split; [reflexivity|constructor].
  - cbn [new_loggers] in E. destruct (new_logger h a) as [h1 x] eqn:E1. destruct (new_loggers h1 l) as [h2 ys] eqn:E2.
    injection E as <- <-. inversion Hl as [|? ? Ha Hl']; subst.
    assert (Hs' : separate l) by (intros b c r Hb Hc; apply Hs; now right).
    destruct (new_logger_spec h n a h1 x Hn Ha) as (L1 & I1 & K1 & P1 & R1 & R2 & C1 & C2 & D1 & D2).
    { intros r. apply Hs; now left. } { exact E1. }
    destruct (IH h1 h2 ys) as (L2 & K2 & P2 & F); [lia|exact Hl'|exact Hs'|exact E2|].
    assert (Gx : forall b, In b (a :: l) -> given h1 (la_exploded b) = given h (la_exploded b)).
    { intros b Hb. apply (given_same h h1 n).
      - rewrite Forall_forall in Hl. exact (proj2 (Hl b Hb)).
      - intros r Hr Er. rewrite K1 by exact Hr. rewrite added_none; [now rewrite app_nil_r|].
        intros c [<-|[]]. apply (Hs b a r Hb (or_introl eq_refl) Er). }
    assert (Ga : forall r, added h1 l r = added h l r).
    { intros r. unfold added. rewrite !flat_map_concat_map. f_equal. apply map_ext_in. intros b Hb.
      rewrite Gx by now right. reflexivity. }
    assert (Kr : forall r, r < n -> content h2 r = content h r ++ added h (a :: l) r).
    { intros r Hr. rewrite K2, K1, Ga by exact Hr. rewrite (added_cons h a l r). now rewrite app_assoc. }
    split; [lia|]. split; [exact Kr|]. split.
    + intros r Hr Hlt. rewrite P2 by lia. now apply P1.
    + constructor.
      * split; [exact I1|]. split.
        -- destruct D1 as [(r & A & ->)|D1]; [|rewrite P2 by lia; exact C1].
           rewrite Kr by now apply Ha. rewrite added_none; [rewrite app_nil_r, A; reflexivity|].
           intros b Hb. apply (Hs a b r (or_introl eq_refl) Hb A).
        -- destruct D2 as [(r & A & ->)|(A & D2)].
           ++ rewrite A. apply Kr. exact (proj1 Ha r A).
           ++ rewrite P2 by lia. rewrite C2. destruct (la_cols a) as [|s|r]; [reflexivity|reflexivity|]. now destruct (A r).
      * eapply Forall2_in_impl; [|exact F]. intros b y Hb (F1 & F2 & F3). split; [exact F1|].
        split; [rewrite F2; apply Gx; now right|]. rewrite F3.
        destruct (la_cols b) as [|s|r] eqn:Eb; [rewrite (Gx b (or_intror Hb)); reflexivity|rewrite (Gx b (or_intror Hb)); reflexivity|].
        assert (Hr : r < n) by (rewrite Forall_forall in Hl'; exact (proj1 (Hl' b Hb) r Eb)).
        rewrite K1, Ga by exact Hr. rewrite (added_cons h a l). now rewrite app_assoc.
Qed.
