(** A concrete text format, and a circus to save, for the examples. *)
From Coq Require Import DecimalString Decimal DecimalZ.
From Verif Require Import Base BaseFacts Rng Utils Relationship SpecRelationship Frame Gens Clock Attribute World Circus Fs SpecFs
  Persist SpecPersist PersistRel Samples.

(** "12" and "-3" are integers, "1/2" is a rational. *)
Fixpoint split_slash (s : string) : string * option string :=
  match s with
  | EmptyString => (EmptyString, None)
  | String c s' => if Ascii.eqb c "/" then (EmptyString, Some s')
                   else let (a, b) := split_slash s' in (String c a, b)
  end.
Definition Z_of_str (s : string) : option Z := option_map Z.of_int (NilZero.int_of_string s).
Definition plain_read (s : string) : option Qc :=
  match split_slash s with
  | (a, None) => option_map (fun z => Q2Qc (inject_Z z)) (Z_of_str a)
  | (a, Some b) => match Z_of_str a, Z_of_str b with
                   | Some x, Some (Zpos d) => Some (Q2Qc (x # d))
                   | _, _ => None
                   end
  end.
(** dates are written "@12", durations "+12" *)
Definition after (c : ascii) (s : string) : option Z :=
  match s with
  | String d s' => if Ascii.eqb c d then Z_of_str s' else None
  | EmptyString => None
  end.
Definition plain : text_format :=
  mkFormat render_Qc plain_read (fun _ => "[]"%string)
    (fun z => String "@" (str_of_Z z)) (after "@") (fun z => String "+" (str_of_Z z)) (after "+").

(** ** the format is sane *)
Definition digit (c : ascii) : bool :=
  existsb (Ascii.eqb c) ["0"; "1"; "2"; "3"; "4"; "5"; "6"; "7"; "8"; "9"; "-"]%char.
Fixpoint all_chars (f : ascii -> bool) (s : string) : bool :=
  match s with EmptyString => true | String c s' => f c && all_chars f s' end.

Lemma all_chars_app f a b : all_chars f (a ++ b) = all_chars f a && all_chars f b.
Proof. induction a as [|c a IH]; cbn; [easy|]. rewrite IH. apply andb_assoc. Qed.

Lemma uint_digits d : all_chars digit (NilEmpty.string_of_uint d) = true.
Proof. induction d; cbn; auto. Qed.
Lemma int_digits z : all_chars digit (str_of_Z z) = true /\ str_of_Z z <> EmptyString.
Proof.
  unfold str_of_Z. assert (H : forall d, all_chars digit (NilZero.string_of_uint d) = true /\ NilZero.string_of_uint d <> EmptyString).
  { intros d. destruct d; [easy| | | | | | | | | |]; (split; [apply uint_digits|easy]). }
  destruct (Z.to_int z) as [d|d]; [apply H|]. cbn. split; [|easy]. apply H.
Qed.

Lemma split_digits s : all_chars digit s = true -> split_slash s = (s, None).
Proof.
  induction s as [|c s IH]; cbn [all_chars split_slash]; [easy|]. intros H. apply andb_prop in H as [H1 H2].
  destruct (Ascii.eqb_spec c "/") as [->|_]; [vm_compute in H1; discriminate|]. now rewrite IH.
Qed.

Lemma Z_of_str_of_Z z : Z_of_str (str_of_Z z) = Some z.
Proof.
  unfold Z_of_str, str_of_Z. rewrite NilZero.isi.
  - cbn. now rewrite DecimalZ.of_to.
  - intros H. apply (f_equal Z.of_int) in H as H'. rewrite DecimalZ.of_to in H'. cbn in H'. subst z. discriminate.
  - intros H. apply (f_equal Z.of_int) in H as H'. rewrite DecimalZ.of_to in H'. cbn in H'. subst z. discriminate.
Qed.

Lemma plain_chars q : all_chars (fun c => digit c || Ascii.eqb c "/") (render_Qc q) = true /\ render_Qc q <> EmptyString.
Proof.
  assert (Hw : forall s, all_chars digit s = true -> all_chars (fun c => digit c || Ascii.eqb c "/") s = true).
  { induction s as [|c s IH]; cbn [all_chars]; [easy|]. intros H. apply andb_prop in H as [-> H2]. now rewrite IH. }
  destruct (int_digits (Qnum q)) as [H1 H2].
  assert (Hg : forall d, all_chars (fun c => digit c || Ascii.eqb c "/") (str_of_Z (Qnum q) ++ "/" ++ str_of_Z (Zpos d)) = true /\
                        (str_of_Z (Qnum q) ++ "/" ++ str_of_Z (Zpos d))%string <> EmptyString).
  { intros d. split.
    - rewrite all_chars_app, (Hw _ H1). change ("/" ++ str_of_Z (Zpos d))%string with (String "/" (str_of_Z (Zpos d))).
      cbn [all_chars]. rewrite (Hw _ (proj1 (int_digits (Zpos d)))). reflexivity.
    - destruct (str_of_Z (Qnum q)); easy. }
  unfold render_Qc. destruct (Qden q); [apply Hg|apply Hg|]. auto.
Qed.

Lemma plain_sane : sane plain.
Proof.
  split.
  - intros z. unfold survives. cbn [show_num read_num plain]. unfold render_Qc. rewrite this_Q2Qc_Z. cbn [Qden Qnum inject_Z].
    unfold plain_read. rewrite split_digits by apply int_digits. now rewrite Z_of_str_of_Z.
  - vm_compute. discriminate.
  - intros q H. cbn [show_num plain] in H. destruct (plain_chars q) as [H1 H2]. unfold na_texts in H. cbn [In] in H.
    repeat (destruct H as [H|H]; [rewrite <- H in H1, H2; vm_compute in H1; (discriminate || now apply H2)|]). easy.
  - intros s b. unfold bool_text. cbn [read_num plain].
    destruct (mem s _) eqn:E.
    + intros _. apply mem_In in E. cbn [In] in E. repeat (destruct E as [<-|E]; [vm_compute; reflexivity|]). easy.
    + destruct (mem s ["False"; "FALSE"; "false"]%string) eqn:E2; [|easy]. intros _. apply mem_In in E2. cbn [In] in E2.
      repeat (destruct E2 as [<-|E2]; [vm_compute; reflexivity|]). easy.
Qed.
