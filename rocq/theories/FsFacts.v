(** Facts about the file system model. *)
From Verif Require Import Base BaseFacts Fs SpecFs.

Section FsFacts.
  Context {C : Type}.
  Implicit Types (n m t : node C) (p q r : path).

  (** induction over trees *)
  Fixpoint node_ind' (P : node C -> Prop) (HF : forall c, P (File c))
      (HD : forall es, (forall f t, In (f, t) es -> P t) -> P (Dir es)) (n : node C) : P n.
  Proof.
    destruct n as [c|es]; [apply HF|]. apply HD.
    induction es as [|[f t] es IH]; [easy|].
    intros f' t' [E|Hin]; [|now apply (IH f' t')].
    injection E as _ <-. now apply node_ind'.
  Defined.

  Lemma lookup_app n p q :
    lookup n (p ++ q) = match lookup n p with Some m => lookup m q | None => None end.
  Proof.
    revert n; induction p as [|c p IH]; intros n; [easy|].
    cbn. destruct n as [x|es]; [easy|]. destruct (dget c es); [apply IH|easy].
  Qed.

  Lemma see_app n p q m : lookup n p = Some m -> see n (p ++ q) = see m q.
  Proof. intros E. unfold see. now rewrite lookup_app, E. Qed.

  Lemma see_none_app n p q : see n p = Nothing -> see n (p ++ q) = Nothing.
  Proof.
    unfold see. rewrite lookup_app. destruct (lookup n p) as [[x|es]|]; easy.
  Qed.

  Lemma see_above n p q : see n (p ++ q) <> Nothing -> q <> [] -> see n p = ADir.
  Proof.
    unfold see. rewrite lookup_app. destruct (lookup n p) as [[x|es]|]; [|easy|easy].
    destruct q; easy.
  Qed.

  Lemma path_exists_see n p : path_exists n p = true <-> see n p <> Nothing.
  Proof. unfold path_exists, see. destruct (lookup n p) as [[x|es]|]; split; easy. Qed.
  Lemma path_missing_see n p : path_exists n p = false <-> see n p = Nothing.
  Proof. unfold path_exists, see. destruct (lookup n p) as [[x|es]|]; split; easy. Qed.

  Lemma see_cons es c q :
    see (Dir es : node C) (c :: q) = match dget c es with Some k => see k q | None => Nothing end.
  Proof. unfold see. cbn. destruct (dget c es); easy. Qed.

  Lemma insert_cons es c p m : p <> [] ->
    insert_at (Dir es) (c :: p) m =
      match dget c es with
      | Some k => let! k' := insert_at k p m in Ok (Dir (dset c k' es))
      | None => Err OSError
      end.
  Proof. now destruct p. Qed.
  Lemma delete_cons (es : list (string * node C)) c p : p <> [] ->
    delete_at (Dir es) (c :: p) =
      match dget c es with
      | Some k => let! k' := delete_at k p in Ok (Dir (dset c k' es))
      | None => Err OSError
      end.
  Proof. now destruct p. Qed.

  (** ** insert_at *)
  Lemma insert_see n p m n' : insert_at n p m = Ok n' ->
    (forall r, see n' (p ++ r) = see m r) /\
    (forall q, ~ at_or_below p q -> see n' q = see n q).
  Proof.
    revert n n'; induction p as [|c p IH]; intros n n' E; [easy|].
    destruct n as [x|es]; [destruct p; easy|].
    destruct p as [|c2 p].
    - injection E as <-. split.
      + intros r. cbn [app]. rewrite see_cons, dget_dset, keqb_refl. easy.
      + intros [|c' q] Hq; [easy|]. rewrite !see_cons, dget_dset.
        destruct (keqb_spec c' c) as [->|]; [|easy].
        exfalso. apply Hq. now exists q.
    - rewrite insert_cons in E by easy. destruct (dget c es) as [k|] eqn:Ek; [|easy].
      apply bind_ok in E. destruct E as [k' [E1 E2]]. injection E2 as <-.
      destruct (IH _ _ E1) as [H1 H2]. split.
      + intros r. cbn [app]. rewrite see_cons, dget_dset, keqb_refl. apply (H1 r).
      + intros [|c' q] Hq; [easy|]. rewrite !see_cons, dget_dset.
        destruct (keqb_spec c' c) as [->|]; [|easy].
        rewrite Ek. apply H2. intros [r ->]. apply Hq. now exists r.
  Qed.

  Lemma insert_total n p c m : see n p = ADir -> exists n', insert_at n (p ++ [c]) m = Ok n'.
  Proof.
    revert n; induction p as [|d p IH]; intros n H.
    - destruct n as [x|es]; [easy|]. cbn. eauto.
    - destruct n as [x|es]; [easy|]. rewrite see_cons in H.
      cbn [app]. destruct (dget d es) as [k|] eqn:Ek; [|easy].
      destruct (IH _ H) as [k' E].
      rewrite insert_cons by now destruct p. rewrite Ek, E. cbn. eauto.
  Qed.

  (** ** delete_at *)
  Lemma delete_see n p n' : delete_at n p = Ok n' ->
    (forall r, see n' (p ++ r) = Nothing) /\
    (forall q, ~ at_or_below p q -> see n' q = see n q).
  Proof.
    revert n n'; induction p as [|c p IH]; intros n n' E; [easy|].
    destruct n as [x|es]; [destruct p; easy|].
    destruct p as [|c2 p].
    - cbn [delete_at] in E. destruct (dmem c es); [|easy]. injection E as <-. split.
      + intros r. cbn [app]. now rewrite see_cons, dget_ddel, keqb_refl.
      + intros [|c' q] Hq; [easy|]. rewrite !see_cons, dget_ddel.
        destruct (keqb_spec c' c) as [->|]; [|easy].
        exfalso. apply Hq. now exists q.
    - rewrite delete_cons in E by easy. destruct (dget c es) as [k|] eqn:Ek; [|easy].
      apply bind_ok in E. destruct E as [k' [E1 E2]]. injection E2 as <-.
      destruct (IH _ _ E1) as [H1 H2]. split.
      + intros r. cbn [app]. rewrite see_cons, dget_dset, keqb_refl. apply (H1 r).
      + intros [|c' q] Hq; [easy|]. rewrite !see_cons, dget_dset.
        destruct (keqb_spec c' c) as [->|]; [|easy].
        rewrite Ek. apply H2. intros [r ->]. apply Hq. now exists r.
  Qed.

  Lemma delete_total n p t : lookup n p = Some t -> p <> [] -> exists n', delete_at n p = Ok n'.
  Proof.
    revert n; induction p as [|d p IH]; intros n H Hp; [easy|].
    destruct n as [x|es]; [easy|]. cbn [lookup] in H.
    destruct (dget d es) as [k|] eqn:Ek; [|easy].
    destruct p as [|c p].
    - cbn [delete_at]. unfold dmem. rewrite Ek. eauto.
    - destruct (IH k H) as [k' E]; [easy|].
      rewrite delete_cons by easy. rewrite Ek, E. cbn. eauto.
  Qed.

  Lemma dset_dset (c : string) (a b : node C) es : dset c b (dset c a es) = dset c b es.
  Proof.
    induction es as [|[c' x] es IH]; cbn.
    - now rewrite keqb_refl.
    - destruct (keqb_spec c c') as [->|N]; cbn.
      + now rewrite keqb_refl.
      + destruct (keqb_spec c c'); [easy|]. now rewrite IH.
  Qed.

  Lemma ddel_dset (c : string) (a : node C) es : ddel c (dset c a es) = ddel c es.
  Proof.
    unfold ddel. induction es as [|[c' x] es IH]; cbn.
    - now rewrite keqb_refl.
    - destruct (keqb_spec c c') as [->|N]; cbn.
      + now rewrite keqb_refl.
      + destruct (keqb_spec c c'); [easy|]. cbn. now rewrite IH.
  Qed.

  (** Removing an entry of the directory at [p]. *)
  Lemma delete_entry n p es f t : lookup n p = Some (Dir es) -> dget f es = Some t -> p <> [] ->
    exists n1, delete_at n (p ++ [f]) = Ok n1 /\
      lookup n1 p = Some (Dir (ddel f es)) /\ delete_at n1 p = delete_at n p.
  Proof.
    intros L G. revert n L; induction p as [|c p IH]; intros n L Hp; [easy|].
    destruct n as [x|es0]; [easy|]. cbn [lookup] in L.
    destruct (dget c es0) as [k|] eqn:Ek; [|easy].
    destruct p as [|c2 p].
    - cbn in L. injection L as ->. cbn [app delete_at]. rewrite Ek.
      unfold dmem at 1. rewrite G. cbn [bind].
      eexists. split; [reflexivity|]. split.
      + cbn. now rewrite dget_dset, keqb_refl.
      + unfold dmem. rewrite dget_dset, keqb_refl, Ek. now rewrite ddel_dset.
    - destruct (IH k L) as [k1 [E1 [L1 D1]]]; [easy|].
      change ((c :: c2 :: p) ++ [f]) with (c :: (c2 :: p) ++ [f]).
      rewrite (delete_cons es0 c ((c2 :: p) ++ [f])) by easy. rewrite Ek, E1. cbn [bind].
      eexists. split; [reflexivity|]. split.
      + cbn [lookup]. rewrite dget_dset, keqb_refl. exact L1.
      + rewrite !delete_cons by easy. rewrite dget_dset, keqb_refl, Ek.
        rewrite D1. destruct (delete_at k (c2 :: p)); [|easy]. cbn. now rewrite dset_dset.
  Qed.

  (** ** ensure_non_existing_dir *)
  Lemma ensure_gone_missing t n p : path_exists n p = false -> ensure_gone t n p = Ok n.
  Proof. intros E. destruct t; cbn; now rewrite E. Qed.

  Lemma ensure_gone_delete t : forall n p, lookup n p = Some t -> p <> [] ->
    ensure_gone t n p = delete_at n p.
  Proof.
    induction t as [c|es IH] using node_ind'; intros n p L Hp.
    - cbn. unfold path_exists, os_remove. now rewrite L.
    - cbn [ensure_gone]. unfold path_exists. rewrite L.
      set (go := fix go (es0 : list (string * node C)) (n0 : node C) : result (node C) :=
               match es0 with
               | [] => Ok n0
               | (f, t') :: es' => let! n1 := ensure_gone t' n0 (p ++ [f]) in go es' n1
               end).
      assert (G : forall l dead n0, incl l es ->
        lookup n0 p = Some (Dir (filter (fun e => negb (existsb (keqb (fst e)) dead)) l)) ->
        exists n1, go l n0 = Ok n1 /\ lookup n1 p = Some (Dir []) /\ delete_at n1 p = delete_at n0 p).
      { induction l as [|[f t] l IHl]; intros dead n0 Hincl L0; [cbn; eauto|].
        cbn [filter fst] in L0. cbn [go].
        destruct (existsb (keqb f) dead) eqn:Ed; cbn [negb] in L0.
        - rewrite ensure_gone_missing.
          + cbn [bind]. apply (IHl dead); [now intros x Hx; apply Hincl; right|exact L0].
          + unfold path_exists. rewrite lookup_app, L0. cbn.
            destruct (dget f _) as [k|] eqn:Ek; [|easy].
            apply dget_In in Ek. apply filter_In in Ek. cbn in Ek. now rewrite Ed in Ek.
        - destruct (delete_entry n0 p _ f t L0) as [n1 [E1 [L1 D1]]]; [|easy|].
          { cbn. now rewrite keqb_refl. }
          assert (Lf : lookup n0 (p ++ [f]) = Some t).
          { rewrite lookup_app, L0. cbn. now rewrite keqb_refl. }
          rewrite (IH f t); [|apply Hincl; now left|exact Lf|now destruct p].
          rewrite E1. cbn [bind].
          destruct (IHl (f :: dead) n1) as [n2 [E2 [L2 D2]]].
          + now intros x Hx; apply Hincl; right.
          + rewrite L1. f_equal. f_equal. unfold ddel. cbn [filter fst].
            rewrite keqb_refl. cbn [negb]. clear.
            induction l as [|[f' t'] l IHl]; [easy|]. cbn [filter fst].
            cbn [existsb].
            destruct (existsb (keqb f') dead) eqn:E; cbn [negb orb].
            * rewrite Bool.orb_true_r. cbn [negb]. exact IHl.
            * cbn [filter fst]. rewrite Bool.orb_false_r.
              rewrite (keqb_sym f' f). destruct (keqb f f'); cbn [negb]; [exact IHl|].
              f_equal. exact IHl.
          + exists n2. split; [exact E2|]. split; [exact L2|]. now rewrite D2. }
      destruct (G es [] n) as [n1 [E1 [L1 D1]]]; [now intros x Hx| |].
      { rewrite L. f_equal. f_equal. clear. induction es as [|e es IH]; [easy|]. cbn. f_equal. exact IH. }
      rewrite E1. cbn [bind]. unfold os_rmdir. now rewrite L1.
  Qed.

  Lemma ensure_non_existing_spec n p : p <> [] ->
    exists n', ensure_non_existing_dir n p = Ok n' /\
      (forall q, at_or_below p q -> see n' q = Nothing) /\
      (forall q, ~ at_or_below p q -> see n' q = see n q).
  Proof.
    intros Hp. unfold ensure_non_existing_dir.
    destruct (lookup n p) as [t|] eqn:L.
    - rewrite (ensure_gone_delete t n p L Hp).
      destruct (delete_total n p t L Hp) as [n' E].
      exists n'. destruct (delete_see n p n' E) as [H1 H2].
      split; [exact E|]. split; [|exact H2]. intros q [r ->]. apply H1.
    - exists n. split; [easy|]. split; [|easy]. intros q [r ->].
      apply see_none_app. unfold see. now rewrite L.
  Qed.

  (** ** makedirs *)
  Lemma make_path_see n p n' : make_path n p = Ok n' ->
    (forall q, at_or_above p q -> q <> p -> see n' q = ADir) /\
    (see n' p = match see n p with Nothing => ADir | s => s end) /\
    (forall q, ~ at_or_above p q -> see n' q = see n q).
  Proof.
    revert n n'; induction p as [|c p IH]; intros n n' E.
    - injection E as <-. split; [|split].
      + intros q [r Hr] Hq. destruct q; easy.
      + unfold see; cbn. now destruct n.
      + easy.
    - destruct n as [x|es]; [easy|]. cbn [make_path] in E.
      apply bind_ok in E. destruct E as [k' [E1 E2]]. injection E2 as <-.
      apply IH in E1. destruct E1 as [H1 [H2 H3]]. split; [|split].
      + intros [|c' q] [r Hr] Hq; [easy|]. injection Hr as <- Hr.
        rewrite see_cons, dget_dset, keqb_refl. apply H1; [now exists r|congruence].
      + rewrite see_cons, dget_dset, keqb_refl, H2. rewrite see_cons.
        destruct (dget c es) as [k|]; [easy|]. destruct p; easy.
      + intros [|c' q] Hq; [easy|]. rewrite !see_cons, dget_dset.
        destruct (keqb_spec c' c) as [->|]; [|easy].
        rewrite H3.
        * destruct (dget c es); [easy|]. destruct q; [|easy].
          exfalso. apply Hq. now exists p.
        * intros [r ->]. apply Hq. now exists r.
  Qed.

  Lemma make_path_total n p :
    (forall q c, at_or_above p q -> q <> p -> see n q <> AFile c) -> exists n', make_path n p = Ok n'.
  Proof.
    revert n; induction p as [|c p IH]; intros n H; [cbn; eauto|].
    destruct n as [x|es].
    - exfalso. apply (H [] x); [now exists (c :: p)|easy|easy].
    - cbn [make_path].
      destruct (IH (match dget c es with Some k => k | None => Dir [] end)) as [k' E].
      + intros q x [r ->] Hq Hs. apply (H (c :: q) x); [now exists r|congruence|].
        rewrite see_cons. destruct (dget c es); [exact Hs|]. now destruct q.
      + rewrite E. cbn. eauto.
  Qed.

  Lemma make_path_through n p n' : make_path n p = Ok n' ->
    forall q c, at_or_above p q -> q <> p -> see n q <> AFile c.
  Proof.
    revert n n'; induction p as [|d p IH]; intros n n' E q c [r Hr] Hq.
    - destruct q; easy.
    - destruct n as [x|es]; [easy|]. cbn [make_path] in E.
      apply bind_ok in E. destruct E as [k' [E1 _]].
      destruct q as [|d' q]; [easy|]. injection Hr as <- Hr. rewrite see_cons.
      destruct (dget d es) as [k|] eqn:Ek; [|easy].
      apply (IH _ _ E1); [now exists r|congruence].
  Qed.

  Lemma makedirs_through n p n' : os_makedirs n p = Ok n' ->
    forall q c, at_or_above p q -> see n q <> AFile c.
  Proof.
    unfold os_makedirs. destruct (path_exists n p) eqn:Ex; [easy|]. intros E q c Hq.
    apply path_missing_see in Ex.
    destruct (list_eq_dec String.string_dec q p) as [->|N]; [congruence|].
    now apply (make_path_through _ _ _ E).
  Qed.

  Lemma makedirs_see n p n' : os_makedirs n p = Ok n' ->
    see n p = Nothing /\
    (forall q, at_or_above p q -> see n' q = ADir) /\
    (forall q, ~ at_or_above p q -> see n' q = see n q).
  Proof.
    unfold os_makedirs. destruct (path_exists n p) eqn:Ex; [easy|]. intros E.
    apply path_missing_see in Ex. destruct (make_path_see _ _ _ E) as [H1 [H2 H3]].
    rewrite Ex in H2. split; [easy|]. split; [|easy]. intros q Hq.
    destruct (list_eq_dec String.string_dec q p) as [->|N]; [easy|]. now apply H1.
  Qed.

  (** ** write_file *)
  Lemma write_see n p c n' : write_file n p c = Ok n' ->
    see n p <> ADir /\ see n' p = AFile c /\ (forall q, q <> p -> see n' q = see n q).
  Proof.
    unfold write_file. intros E.
    assert (N : see n p <> ADir) by (unfold see; destruct (lookup n p) as [[x|es]|]; easy).
    assert (E' : insert_at n p (File c) = Ok n') by (destruct (lookup n p) as [[x|es]|]; easy).
    destruct (insert_see _ _ _ _ E') as [H1 H2]. split; [easy|]. split.
    - specialize (H1 []). now rewrite app_nil_r in H1.
    - intros q Hq.
      destruct (list_eq_dec String.string_dec (firstn (length p) q) p) as [Hpre|Hpre].
      + assert (Eq : q = p ++ skipn (length p) q) by (rewrite <- Hpre at 1; now rewrite firstn_skipn).
        set (r := skipn (length p) q) in *. rewrite Eq, H1.
        destruct r as [|x r]; [now rewrite app_nil_r in Eq|].
        destruct (see n (p ++ x :: r)) eqn:Es; [easy| |]; exfalso; apply N;
          apply (see_above n p (x :: r)); congruence.
      + apply H2. intros [r ->]. apply Hpre. rewrite firstn_app, Nat.sub_diag, firstn_all. cbn.
        now rewrite app_nil_r.
  Qed.

  Lemma write_total n p f c : see n p = ADir -> see n (p ++ [f]) <> ADir ->
    exists n', write_file n (p ++ [f]) c = Ok n'.
  Proof.
    intros Hd Hf. unfold write_file. destruct (insert_total n p f (File c) Hd) as [n' E].
    exists n'. unfold see in Hf. destruct (lookup n (p ++ [f])) as [[x|es]|]; easy.
  Qed.

  Lemma read_see n p c : read_file n p = Ok c <-> see n p = AFile c.
  Proof.
    unfold read_file, see. destruct (lookup n p) as [[x|es]|]; split; try easy; congruence.
  Qed.
End FsFacts.
