(** * Facts about the base definitions (proof support only) *)
From Coq Require Import List NArith ZArith Bool Lia ZifyBool ZifyNat ZifyN.
From Verif Require Import Base.
Import ListNotations.
Open Scope N_scope.
Ltac Zify.zify_post_hook ::= Z.div_mod_to_equations.

Lemma b2n_lt b : b2n b < 256.
Proof. unfold b2n. pose proof (to_N_bounded b). lia. Qed.

Lemma n2b_b2n b : n2b (b2n b) = b.
Proof.
  unfold n2b. rewrite N.mod_small by apply b2n_lt. unfold b2n. now rewrite of_to_N.
Qed.

Lemma b2n_n2b n : b2n (n2b n) = n mod 256.
Proof.
  unfold n2b. destruct (of_N (n mod 256)) eqn:E.
  - unfold b2n. now apply to_of_N.
  - apply of_N_None_iff in E. assert (n mod 256 < 256) by (apply N.mod_lt; lia). lia.
Qed.

Lemma b2n_inj a b : b2n a = b2n b -> a = b.
Proof. intros H. rewrite <- (n2b_b2n a), <- (n2b_b2n b). now rewrite H. Qed.

Lemma byte_eqb_eq a b : byte_eqb a b = true <-> a = b.
Proof.
  unfold byte_eqb. rewrite N.eqb_eq. split; [apply b2n_inj | now intros ->].
Qed.

Lemma byte_eqb_neq a b : byte_eqb a b = false <-> a <> b.
Proof. rewrite <- not_true_iff_false, byte_eqb_eq. reflexivity. Qed.

Lemma byte_eqb_refl a : byte_eqb a a = true.
Proof. now apply byte_eqb_eq. Qed.

(** ** lengths *)
Lemma lenN_nil A : @lenN A [] = 0. Proof. reflexivity. Qed.
Lemma lenN_cons {A} (x : A) l : lenN (x :: l) = 1 + lenN l.
Proof. unfold lenN. cbn [length]. lia. Qed.
Lemma lenN_app {A} (l m : list A) : lenN (l ++ m) = lenN l + lenN m.
Proof. unfold lenN. rewrite app_length. lia. Qed.
Lemma lenN_takeN {A} n (l : list A) : lenN (takeN n l) = N.min n (lenN l).
Proof. unfold lenN, takeN. rewrite firstn_length. lia. Qed.
Lemma lenN_dropN {A} n (l : list A) : lenN (dropN n l) = lenN l - n.
Proof. unfold lenN, dropN. rewrite skipn_length. lia. Qed.
Lemma lenN_0 {A} (l : list A) : lenN l = 0 -> l = [].
Proof. destruct l; [reflexivity|]. rewrite lenN_cons. lia. Qed.
Lemma lenN_length {A} (l : list A) : N.to_nat (lenN l) = length l.
Proof. unfold lenN. lia. Qed.

(** ** take and drop *)
Lemma takeN_dropN {A} n (l : list A) : takeN n l ++ dropN n l = l.
Proof. apply firstn_skipn. Qed.
Lemma dropN_0 {A} (l : list A) : dropN 0 l = l. Proof. reflexivity. Qed.
Lemma takeN_0 {A} (l : list A) : takeN 0 l = []. Proof. reflexivity. Qed.
Lemma dropN_all {A} n (l : list A) : lenN l <= n -> dropN n l = [].
Proof. intros. unfold dropN. apply skipn_all2. unfold lenN in *. lia. Qed.
Lemma takeN_all {A} n (l : list A) : lenN l <= n -> takeN n l = l.
Proof. intros. unfold takeN. apply firstn_all2. unfold lenN in *. lia. Qed.
Lemma skipn_skipn' {A} (a b : nat) (l : list A) : skipn a (skipn b l) = skipn (b + a) l.
Proof.
  revert l; induction b; intros l; cbn [skipn Nat.add]; [reflexivity|].
  destruct l; [now rewrite skipn_nil | apply IHb].
Qed.
Lemma dropN_dropN {A} a b (l : list A) : dropN a (dropN b l) = dropN (b + a) l.
Proof.
  unfold dropN. rewrite skipn_skipn'. f_equal. lia.
Qed.
Lemma takeN_takeN {A} a b (l : list A) : takeN a (takeN b l) = takeN (N.min a b) l.
Proof. unfold takeN. rewrite firstn_firstn. f_equal. lia. Qed.
Lemma takeN_app_le {A} n (l m : list A) : n <= lenN l -> takeN n (l ++ m) = takeN n l.
Proof.
  intros. unfold takeN, lenN in *. rewrite firstn_app.
  replace (N.to_nat n - length l)%nat with 0%nat by lia. cbn. now rewrite app_nil_r.
Qed.
Lemma takeN_app_ge {A} n (l m : list A) : lenN l <= n -> takeN n (l ++ m) = l ++ takeN (n - lenN l) m.
Proof.
  intros. unfold takeN, lenN in *. rewrite firstn_app, firstn_all2 by lia. f_equal. f_equal. lia.
Qed.
Lemma dropN_app_le {A} n (l m : list A) : n <= lenN l -> dropN n (l ++ m) = dropN n l ++ m.
Proof.
  intros. unfold dropN, lenN in *. rewrite skipn_app.
  replace (N.to_nat n - length l)%nat with 0%nat by lia. reflexivity.
Qed.
Lemma dropN_app_ge {A} n (l m : list A) : lenN l <= n -> dropN n (l ++ m) = dropN (n - lenN l) m.
Proof.
  intros. unfold dropN, lenN in *. rewrite skipn_app, skipn_all2 by lia. cbn [app]. f_equal. lia.
Qed.
Lemma dropN_takeN {A} a b (l : list A) : dropN a (takeN b l) = takeN (b - a) (dropN a l).
Proof.
  unfold dropN, takeN.
  destruct (N.leb_spec a b).
  - replace (N.to_nat b) with (N.to_nat a + N.to_nat (b - a))%nat by lia.
    now rewrite <- firstn_skipn_comm.
  - replace (N.to_nat (b - a)) with 0%nat by lia. cbn [firstn].
    apply skipn_all2. rewrite firstn_length. lia.
Qed.
Lemma takeN_app_exact {A} (l m : list A) n : n = lenN l -> takeN n (l ++ m) = l.
Proof. intros ->. rewrite takeN_app_le by lia. apply takeN_all. lia. Qed.
Lemma dropN_app_exact {A} (l m : list A) n : n = lenN l -> dropN n (l ++ m) = m.
Proof. intros ->. rewrite dropN_app_ge by lia. now rewrite N.sub_diag. Qed.

Lemma dropN_cons {A} n (x : A) l : 0 < n -> dropN n (x :: l) = dropN (n - 1) l.
Proof.
  intros. unfold dropN. replace (N.to_nat n) with (S (N.to_nat (n - 1))) by lia. reflexivity.
Qed.
Lemma takeN_cons {A} n (x : A) l : 0 < n -> takeN n (x :: l) = x :: takeN (n - 1) l.
Proof.
  intros. unfold takeN. replace (N.to_nat n) with (S (N.to_nat (n - 1))) by lia. reflexivity.
Qed.

(** ** nth *)
Definition nthN (l : list byte) (i : N) : byte := nth (N.to_nat i) l x00.

Lemma get_nthN (l : list byte) i : i < lenN l -> get l i = Ret (nthN l i).
Proof.
  intros. unfold get, nthN, lenN in *.
  rewrite (nth_error_nth' l x00) by lia. reflexivity.
Qed.
Lemma get_Ret {A} (l : list A) i x : get l i = Ret x -> i < lenN l.
Proof.
  unfold get, lenN. destruct (nth_error l (N.to_nat i)) eqn:E; [|discriminate]. intros _.
  assert (nth_error l (N.to_nat i) <> None) as H by congruence. apply nth_error_Some in H. lia.
Qed.
Lemma nthN_app_l l m i : i < lenN l -> nthN (l ++ m) i = nthN l i.
Proof. intros. unfold nthN, lenN in *. apply app_nth1. lia. Qed.
Lemma nthN_app_r l m i : lenN l <= i -> nthN (l ++ m) i = nthN m (i - lenN l).
Proof. intros. unfold nthN, lenN in *. rewrite app_nth2 by lia. f_equal. lia. Qed.
Lemma nthN_dropN l i n : nthN (dropN n l) i = nthN l (n + i).
Proof.
  unfold nthN, dropN. replace (N.to_nat (n + i)) with (N.to_nat n + N.to_nat i)%nat by lia.
  generalize (N.to_nat n) (N.to_nat i). clear. intros a b. revert l. induction a; intros l; cbn; [reflexivity|].
  destruct l; [now destruct b | apply IHa].
Qed.
Lemma nthN_takeN l i n : i < n -> nthN (takeN n l) i = nthN l i.
Proof.
  intros. unfold nthN, takeN.
  rewrite <- (firstn_skipn (N.to_nat n) l) at 2.
  destruct (N.ltb_spec i (lenN l)).
  - rewrite app_nth1; [reflexivity|]. rewrite firstn_length. unfold lenN in *. lia.
  - rewrite !nth_overflow; [reflexivity| |];
    rewrite ?app_length, ?firstn_length, ?skipn_length; unfold lenN in *; lia.
Qed.
Lemma nthN_cons x l i : nthN (x :: l) i = if i =? 0 then x else nthN l (i - 1).
Proof.
  unfold nthN. destruct (N.eqb_spec i 0) as [->|]; [reflexivity|].
  replace (N.to_nat i) with (S (N.to_nat (i - 1))) by lia. reflexivity.
Qed.

Lemma dropN_nthN l n : n < lenN l -> dropN n l = nthN l n :: dropN (n + 1) l.
Proof.
  intros. unfold dropN, nthN, lenN in *.
  replace (N.to_nat (n + 1)) with (S (N.to_nat n)) by lia.
  assert (N.to_nat n < length l)%nat as Hl by lia. revert Hl. generalize (N.to_nat n). clear.
  intros a. revert l. induction a; intros l H; destruct l; cbn in *; try lia; [reflexivity|].
  apply IHa. lia.
Qed.

(** ** slices *)
Lemma slice_ok {A} (l : list A) s e : s <= e -> e <= lenN l -> slice l s e = Ret (takeN (e - s) (dropN s l)).
Proof. intros. unfold slice. destruct (N.leb_spec s e), (N.leb_spec e (lenN l)); cbn; lia || reflexivity. Qed.
Lemma slice_from_ok {A} (l : list A) s : s <= lenN l -> slice_from l s = Ret (dropN s l).
Proof. intros. unfold slice_from. destruct (N.leb_spec s (lenN l)); lia || reflexivity. Qed.

Lemma uadd_ok a b : a + b <= usize_max -> uadd a b = Ret (a + b).
Proof. intros. unfold uadd. destruct (N.leb_spec (a + b) usize_max); lia || reflexivity. Qed.
Lemma usub_ok a b : b <= a -> usub a b = Ret (a - b).
Proof. intros. unfold usub. destruct (N.leb_spec b a); lia || reflexivity. Qed.

Lemma bind_Ret {A B} (x : res A) (f : A -> res B) b :
  bind x f = Ret b -> exists a, x = Ret a /\ f a = Ret b.
Proof. destruct x; cbn; try discriminate. eauto. Qed.

(** ** find_range *)
Lemma find_range_spec (p : N -> res bool) (q : N -> bool) fuel : forall lo,
  (forall i, lo <= i < lo + N.of_nat fuel -> p i = Ret (q i)) ->
  (exists k, find_range p lo fuel = Ret (Some k) /\ lo <= k < lo + N.of_nat fuel /\ q k = true /\
             forall i, lo <= i < k -> q i = false) \/
  (find_range p lo fuel = Ret None /\ forall i, lo <= i < lo + N.of_nat fuel -> q i = false).
Proof.
  induction fuel as [|f IH]; intros lo H.
  - right. split; [reflexivity|]. lia.
  - cbn [find_range]. rewrite H by lia. cbn [bind]. destruct (q lo) eqn:E.
    + left. exists lo. repeat split; auto; lia.
    + destruct (IH (lo + 1)) as [(k & E1 & Hk & Hq & Hlt)|[E1 Hall]].
      * intros i Hi. apply H. lia.
      * left. exists k. repeat split; auto; try lia.
        intros i Hi. destruct (N.eq_dec i lo) as [->|]; [assumption|]. apply Hlt. lia.
      * right. split; [assumption|]. intros i Hi.
        destruct (N.eq_dec i lo) as [->|]; [assumption|]. apply Hall. lia.
Qed.

(** ** little endian *)
Lemma le_bytes_length k x : length (le_bytes k x) = k.
Proof. revert x; induction k; intros; cbn; [reflexivity|now rewrite IHk]. Qed.
Lemma lenN_le_bytes k x : lenN (le_bytes k x) = N.of_nat k.
Proof. unfold lenN. now rewrite le_bytes_length. Qed.
Lemma le_num_bound l : le_num l < 256 ^ lenN l.
Proof.
  induction l as [|b l IH]; [reflexivity|].
  rewrite lenN_cons, N.pow_add_r, N.pow_1_r. cbn [le_num]. pose proof (b2n_lt b). lia.
Qed.
Lemma le_num_le_bytes k x : le_num (le_bytes k x) = x mod 256 ^ N.of_nat k.
Proof.
  revert x; induction k as [|k IH]; intros x; cbn [le_bytes le_num].
  - now rewrite N.mod_1_r.
  - rewrite IH, b2n_n2b. replace (N.of_nat (S k)) with (1 + N.of_nat k) by lia.
    rewrite N.pow_add_r, N.pow_1_r.
    rewrite (N.mod_mul_r x 256 (256 ^ N.of_nat k)); [lia|lia|].
    apply N.pow_nonzero. lia.
Qed.
Lemma le_bytes_le_num l : le_bytes (length l) (le_num l) = l.
Proof.
  induction l as [|b l IH]; [reflexivity|]. cbn [length le_bytes le_num].
  pose proof (b2n_lt b). f_equal.
  - apply b2n_inj. rewrite b2n_n2b. lia.
  - replace ((b2n b + 256 * le_num l) / 256) with (le_num l) by lia. assumption.
Qed.
