(** Concrete objects used by the examples beside the property theorems. *)
From Verif Require Import Base BaseFacts Rng Utils Relationship SpecRelationship.

Definition ok_or {A} (d : A) (r : result A) : A := match r with Ok a => a | Err _ => d end.

(** To exhibit a successful call without normalising its result. *)
Lemma ok_ex1 {A} (d : A) (x : result A) (P : A -> Prop) :
  is_ok x = true -> P (ok_or d x) -> exists a, x = Ok a /\ P a.
Proof. destruct x; [|easy]. cbn. eauto. Qed.

Lemma ok_ex {A B} (d : A * B) (x : result (A * B)) (P : A -> B -> Prop) :
  is_ok x = true -> P (fst (ok_or d x)) (snd (ok_or d x)) -> exists a b, x = Ok (a, b) /\ P a b.
Proof. destruct x as [[a b]|]; [|easy]. cbn. eauto. Qed.

Lemma ok_eq {A B} (d : A * B) (x : result (A * B)) :
  is_ok x = true -> x = Ok (fst (ok_or d x), snd (ok_or d x)).
Proof. now destruct x as [[a b]|]. Qed.

Definition s_ (x : string) : val := VStr x.

(** a random stream that is not constant *)
Definition stream : prng := fun seed n => ((N.of_nat n + seed) * 4711862398471934 + 5)%N.

Definition empty_rel : relationship := new_relationship stream 7.
Definition no_rows {A} : list A * relationship := ([], empty_rel).

(** shops A and B selling phones; A holds three items, B one *)
Definition shop : relationship :=
  ok_or empty_rel
    (add_relations empty_rel
       [s_ "A"; s_ "B"; s_ "A"; s_ "A"] [s_ "x"; s_ "y"; s_ "z"; s_ "t"] (WArray [1; 2; 1; 0]%Q)).

Lemma shop_reachable : reachable shop.
Proof.
  apply (reach_add empty_rel [s_ "A"; s_ "B"; s_ "A"; s_ "A"] [s_ "x"; s_ "y"; s_ "z"; s_ "t"]
           (WArray [1; 2; 1; 0]%Q)); [apply reach_new|reflexivity].
Qed.

Lemma shop_homogeneous : homogeneous shop.
Proof.
  left. intros f t w H. vm_compute in H.
  repeat (destruct H as [[= <- <- <-]|H]; [easy|]). easy.
Qed.

Lemma shop_no_na : no_na_tos shop.
Proof.
  intros f t w H. vm_compute in H.
  repeat (destruct H as [[= <- <- <-]|H]; [easy|]). easy.
Qed.

Lemma ok_eq1 {A} (d : A) (x : result A) : is_ok x = true -> x = Ok (ok_or d x).
Proof. now destruct x. Qed.
