(** Reading the log files back. *)
From Coq Require Import Permutation.
From Verif Require Import Base BaseFacts Rng Utils UtilsFacts Frame Clock World Story Ops Fs Circus Persist Reload
  SpecStory SpecFs FsFacts SpecCircus CircusFacts CircusProps SpecPersist PersistFacts PersistTree SpecReload.

Lemma show_names fmt cols : map (show fmt) (map VStr cols) = cols.
Proof. rewrite map_map. apply map_id. Qed.

Lemma plain_header_spec names : plain_header names = true <-> NoDup names /\ ~ In ""%string names.
Proof.
  unfold plain_header. rewrite andb_true_iff, nodupb_NoDup, negb_true_iff, <- not_true_iff_false, mem_In. tauto.
Qed.

Lemma nth_map_seq {A} (f : nat -> A) n j d : j < n -> nth j (map f (seq 0 n)) d = f j.
Proof.
  intros H. rewrite (nth_indep _ d (f 0)) by (rewrite map_length, seq_length; exact H).
  rewrite map_nth. f_equal. rewrite seq_nth by exact H. reflexivity.
Qed.
Lemma map_nth_seq {A} (l : list A) d : map (fun i => nth i l d) (seq 0 (length l)) = l.
Proof.
  apply (nth_ext _ _ d d); [now rewrite map_length, seq_length|].
  intros i Hi. rewrite map_length, seq_length in Hi. now rewrite nth_map_seq.
Qed.

(** ** one file *)
Section One.
  Variable fmt : text_format.
  Variable H : sane fmt.

  Lemma read_frame_ok cols rows : plain_names cols -> Forall (fun r => length r = length cols) rows ->
    exists d, read_frame fmt (map VStr cols :: rows) = Ok d /\ df_cols d = cols /\
      map fst (df_rows d) = map vnat (seq 0 (length rows)) /\
      (forall r, In r (df_rows d) -> length (snd r) = length cols) /\
      (forall j, j < length cols ->
         cells j (map snd (df_rows d)) = read_column fmt (map (show fmt) (cells j rows))).
  Proof.
    intros (Hn & He) Hl. unfold read_frame. rewrite show_names.
    assert (E1 : plain_header cols = true) by (apply plain_header_spec; now split). rewrite E1. cbn [andb].
    assert (E2 : forallb (fun r => Nat.eqb (length r) (length (map VStr cols))) rows = true).
    { apply forallb_forall. intros r Hr. rewrite map_length. apply Nat.eqb_eq. rewrite Forall_forall in Hl. now apply Hl. }
    rewrite E2. eexists. split; [reflexivity|]. cbn [df_cols df_rows]. split; [reflexivity|].
    split; [rewrite map_map; reflexivity|]. split.
    - intros r Hr. apply in_map_iff in Hr as (i & <- & _). cbn [snd]. unfold read_columns.
      now rewrite !map_length, seq_length.
    - intros j Hj. unfold cells. rewrite !map_map.
      set (c := read_column fmt (map (fun x => show fmt (nth j x VNA)) rows)).
      transitivity (map (fun i => nth i c VNA) (seq 0 (length rows))).
      + apply map_ext. intros i. cbn [snd]. unfold read_columns. rewrite map_map, map_length, nth_map_seq by exact Hj. reflexivity.
      + replace (length rows) with (length c); [apply map_nth_seq|]. unfold c. now rewrite read_length, map_length.
  Qed.
End One.

Lemma rows_by_cells (n : nat) (a b : list (list val)) : length a = length b ->
  Forall (fun r => length r = n) a -> Forall (fun r => length r = n) b ->
  (forall j, j < n -> cells j a = cells j b) -> a = b.
Proof.
  intros E Fa Fb Hc. revert b E Fb Hc. induction Fa as [|r a Hr Fa IH]; intros [|s b] E Fb Hc; try easy.
  inversion Fb as [|? ? Hs Fb']; subst. f_equal.
  - apply (nth_ext _ _ VNA VNA); [easy|]. intros j Hj. specialize (Hc j ltac:(lia)). cbn in Hc. now injection Hc.
  - apply IH; [now injection E|exact Fb'|]. intros j Hj. specialize (Hc j Hj). cbn in Hc. now injection Hc.
Qed.

(** ** the folder *)
Lemma load_files_ok fmt fs folder (frame : string -> option df) names : forall acc,
  (forall name, In name names -> exists id d c, name = csv_name id /\ frame id = Some d /\
     read_file fs (folder ++ [name]) = Ok c /\ read_frame fmt c = Ok d) ->
  NoDup (dkeys acc) ->
  exists dic, load_files fmt fs folder names acc = Ok dic /\ NoDup (dkeys dic) /\
    forall id, dget id dic = if mem (csv_name id) names then frame id else dget id acc.
Proof.
  induction names as [|name names IH]; intros acc Hn Na.
  - exists acc. split; [reflexivity|]. split; [exact Na|]. reflexivity.
  - cbn [load_files]. destruct (Hn name (or_introl eq_refl)) as (id & d & c & -> & Hf & Hr & Hd).
    rewrite Hr. cbn [bind]. rewrite Hd. cbn [bind]. rewrite drop4_csv.
    destruct (IH (dset id d acc)) as (dic & E & Nd & G).
    + intros name Hi. apply Hn. now right.
    + now apply dset_NoDup.
    + exists dic. split; [exact E|]. split; [exact Nd|]. intros id'. rewrite G, dget_dset.
      change (mem (csv_name id') (csv_name id :: names)) with (keqb (csv_name id') (csv_name id) || mem (csv_name id') names).
      destruct (keqb_spec id' id) as [->|Ne].
      * rewrite keqb_refl. cbn [orb]. destruct (mem (csv_name id) names); [reflexivity|now rewrite Hf].
      * destruct (keqb_spec (csv_name id') (csv_name id)) as [E'|_]; [|reflexivity].
        exfalso. apply Ne. apply (f_equal drop4) in E'. now rewrite !drop4_csv in E'.
Qed.

Lemma listed_names (fs : node lines) folder names : listdir fs folder = Ok names ->
  forall name, In name names <-> see fs (folder ++ [name]) <> Nothing.
Proof.
  unfold listdir, see. intros H name. rewrite lookup_app. destruct (lookup fs folder) as [[c|es]|]; try discriminate.
  injection H as <-. cbn [lookup]. destruct (dget name es) as [m|] eqn:E.
  - apply dget_In in E. split; [destruct m; easy|]. intros _. unfold dkeys. apply in_map_iff. now exists (name, m).
  - apply dget_None in E. split; [contradiction|easy].
Qed.

Lemma emitted_content id L : (emitted_rows id L = [] /\ log_content id L = Nothing) \/
  (emitted_rows id L <> [] /\ exists header, log_content id L = AFile (header :: emitted_rows id L)).
Proof.
  unfold log_content, emitted_rows. destruct (frames_of id L) as [|d l] eqn:E; [now left|]. right. split; [|eauto].
  assert (Hd : In d (frames_of id L)) by (rewrite E; now left). unfold frames_of in Hd. apply filter_In in Hd as [_ Hd].
  cbn. destruct (df_rows d); [discriminate|]. easy.
Qed.

Lemma logs_reloaded fmt ls duration folder del w fs w' fs' tr (cols : string -> list string) :
  sane fmt -> (forall l, Permutation (ls l) l) ->
  run duration folder del w fs = (Ok tt, (w', fs', tr)) -> startable fs folder del -> (0 < Clock.c_step (w_clock w))%Z ->
  (forall id, cols id <> [] /\ plain_names (cols id) /\ loggers_agree w id (cols id)) ->
  exists n L, covers (Clock.c_step (w_clock w)) duration n /\ emits w (steps_of (length (w_stories w)) n) L w' /\
    (L = [] -> load_all_logs fmt ls fs' folder = Err OSError) /\
    (L <> [] -> exists dic, load_all_logs fmt ls fs' folder = Ok dic /\ NoDup (map fst dic) /\
       forall id,
         (emitted_rows id L = [] -> dget id dic = None) /\
         (emitted_rows id L <> [] -> exists d, dget id dic = Some d /\ df_cols d = cols id /\
            map fst (df_rows d) = map vnat (seq 0 (length (emitted_rows id L))) /\
            (forall j, j < length (cols id) ->
               (cells j (map snd (df_rows d)) = cells j (emitted_rows id L) <-> clean_values fmt (cells j (emitted_rows id L)))) /\
            (map snd (df_rows d) = emitted_rows id L <->
               forall j, j < length (cols id) -> clean_values fmt (cells j (emitted_rows id L))))).
Proof.
  intros Hsane Hls H St Hs Hcols.
  assert (Hf : folder <> []).
  { destruct St as [(A & _)|(A & _)]; [|exact A]. intros ->. now apply root_exists in A. }
  destruct (start_spec _ _ _ _ _ _ _ H Hf Hs) as (n & fs0 & Hm & Hcl & [(_ & Hrun)|(_ & _ & E & _)]); [|easy].
  destruct (run_steps_emits _ _ _ _ _ _ _ _ Hrun) as [L He].
  destruct (run_files duration folder del w fs n L w' St Hs Hm He) as (fs1 & tr1 & E & (Hold & Hother & _) & Hdir & _).
  rewrite H in E. injection E as <- <-. exists n, L. split; [exact Hm|]. split; [exact He|]. split.
  { intros ->. unfold load_all_logs, listdir. unfold see in Hdir. destruct (lookup fs' folder) as [[c|es]|]; try discriminate. reflexivity. }
  intros HL. assert (exists names, listdir fs' folder = Ok names) as [names Hnames].
  { unfold listdir. unfold see in Hdir. destruct L; [easy|]. destruct (lookup fs' folder) as [[c|es]|]; try discriminate. eauto. }
  pose proof (listed_names _ _ _ Hnames) as Hin.
  (* the file of each id *)
  assert (Hid : forall id, emitted_rows id L <> [] ->
    Forall (fun r => length r = length (cols id)) (emitted_rows id L) /\
    see fs' (folder ++ [csv_name id]) = AFile (map VStr (cols id) :: emitted_rows id L)).
  { intros id Hne. destruct (Hcols id) as (Hc & _ & Hag). pose proof (emits_cols id _ _ _ _ _ He Hc Hag) as F.
    destruct (aligned_content id (cols id) L F) as [A|[A B]].
    - destruct (emitted_content id L) as [[C _]|[_ [h C]]]; [contradiction|congruence].
    - split; [exact B|]. unfold csv_name. rewrite Hold. exact A. }
  pose (frame := fun id => match emitted_rows id L with
     | [] => None
     | rows => match read_frame fmt (map VStr (cols id) :: rows) with Ok d => Some d | Err _ => None end end).
  assert (Hframe : forall id, emitted_rows id L <> [] -> exists d, frame id = Some d /\
     read_frame fmt (map VStr (cols id) :: emitted_rows id L) = Ok d /\ df_cols d = cols id /\
      map fst (df_rows d) = map vnat (seq 0 (length (emitted_rows id L))) /\
      (forall r, In r (df_rows d) -> length (snd r) = length (cols id)) /\
      (forall j, j < length (cols id) ->
         cells j (map snd (df_rows d)) = read_column fmt (map (show fmt) (cells j (emitted_rows id L))))).
  { intros id Hne. destruct (Hcols id) as (_ & Hp & _). destruct (Hid id Hne) as [Hl _].
    destruct (read_frame_ok fmt (cols id) (emitted_rows id L) Hp Hl) as (d & E & R). exists d.
    split; [|split; [exact E|exact R]]. unfold frame. destruct (emitted_rows id L) eqn:Ee; [contradiction|]. now rewrite E. }
  destruct (load_files_ok fmt fs' folder frame (ls names) []) as (dic & E & Nd & G).
  - intros name Hn. apply (Permutation_in _ (Hls names)) in Hn. apply Hin in Hn.
    destruct (in_dec string_dec (csv_name (drop4 name)) [name]) as [[Ec|[]]|Nc].
    + rewrite Ec. exists (drop4 name). rewrite Ec in Hn. unfold csv_name in Hn. rewrite Hold in Hn.
      destruct (emitted_content (drop4 name) L) as [[_ C]|[Hne _]]; [contradiction|].
      destruct (Hframe _ Hne) as (d & Hd & Hr & _). destruct (Hid _ Hne) as [_ Hsee]. exists d. eexists.
      split; [reflexivity|]. split; [exact Hd|]. split; [apply read_see; exact Hsee|exact Hr].
    + exfalso. apply Hn. apply Hother. intros id Eid. apply Nc. left. fold (csv_name id) in Eid. rewrite Eid. now rewrite drop4_csv.
  - constructor.
  - exists dic. split; [unfold load_all_logs; rewrite Hnames; exact E|]. split; [exact Nd|]. intros id.
    assert (Hmem : mem (csv_name id) (ls names) = true <-> emitted_rows id L <> []).
    { rewrite mem_In. split.
      - intros Hi. apply (Permutation_in _ (Hls names)) in Hi. apply Hin in Hi. unfold csv_name in Hi. rewrite Hold in Hi.
        destruct (emitted_content id L) as [[_ C]|[Hne _]]; [contradiction|exact Hne].
      - intros Hne. apply (Permutation_in _ (Permutation_sym (Hls names))). apply Hin. destruct (Hid id Hne) as [_ ->]. easy. }
    split.
    + intros E0. rewrite G. destruct (mem (csv_name id) (ls names)); [now destruct (proj1 Hmem eq_refl)|reflexivity].
    + intros Hne. destruct (Hframe id Hne) as (d & Hd & _ & Hc & Hi & Hl & Hcells). exists d.
      split; [rewrite G; now rewrite (proj2 Hmem Hne)|]. split; [exact Hc|]. split; [exact Hi|].
      assert (Hj : forall j, j < length (cols id) ->
         (cells j (map snd (df_rows d)) = cells j (emitted_rows id L) <-> clean_values fmt (cells j (emitted_rows id L)))).
      { intros j Hj. rewrite Hcells by exact Hj. now apply column_exact. }
      split; [exact Hj|]. split.
      * intros Er j Hlt. apply Hj; [exact Hlt|]. now rewrite Er.
      * intros Hclean. apply (rows_by_cells (length (cols id))).
        -- apply (f_equal (@length val)) in Hi. rewrite !map_length, seq_length in Hi. now rewrite map_length.
        -- apply Forall_forall. intros r Hr. apply in_map_iff in Hr as (x & <- & Hx). now apply Hl.
        -- apply (Hid id Hne).
        -- intros j Hlt. apply Hj; auto.
Qed.
