(** Facts about [Prelude]; proofs only. *)
From Verif Require Import Prelude.
From Coq Require Export ZifyBool.
Ltac Zify.zify_post_hook ::= Z.div_mod_to_equations.

(** Evaluate closed powers of two in the goal and the hypotheses. *)
Ltac zpow :=
  repeat match goal with
  | |- context [2 ^ ?e] =>
      let p := eval compute in (2 ^ e) in
      lazymatch p with Zpos _ => change (2 ^ e) with p end
  | H : context [2 ^ ?e] |- _ =>
      let p := eval compute in (2 ^ e) in
      lazymatch p with Zpos _ => change (2 ^ e) with p in H end
  end.

Lemma uN_range n x : 0 <= n -> 0 <= uN n x < 2 ^ n.
Proof. intros; unfold uN; apply Z.mod_pos_bound; lia. Qed.

Lemma uN_small n x : 0 <= x < 2 ^ n -> uN n x = x.
Proof. intros; unfold uN; apply Z.mod_small; lia. Qed.

Lemma sN_range n x : 0 < n -> - 2 ^ (n - 1) <= sN n x < 2 ^ (n - 1).
Proof.
  intros Hn; unfold sN.
  assert (E : 2 ^ n = 2 * 2 ^ (n - 1)) by (rewrite <- Z.pow_succ_r by lia; f_equal; lia).
  assert (0 < 2 ^ (n - 1)) by (apply Z.pow_pos_nonneg; lia).
  pose proof (Z.mod_pos_bound (x + 2 ^ (n - 1)) (2 ^ n)); lia.
Qed.

Lemma sN_small n x : 0 < n -> - 2 ^ (n - 1) <= x < 2 ^ (n - 1) -> sN n x = x.
Proof.
  intros Hn Hx; unfold sN.
  assert (E : 2 ^ n = 2 * 2 ^ (n - 1)) by (rewrite <- Z.pow_succ_r by lia; f_equal; lia).
  rewrite Z.mod_small; lia.
Qed.

Lemma inU_spec n x : inU n x = true <-> 0 <= x < 2 ^ n.
Proof. unfold inU; lia. Qed.
Lemma inS_spec n x : inS n x = true <-> - 2 ^ (n - 1) <= x < 2 ^ (n - 1).
Proof. unfold inS; lia. Qed.

Lemma byte_ok_spec b : byte_ok b = true <-> 0 <= b < 256.
Proof. unfold byte_ok; lia. Qed.

Lemma bytes_ok_spec l : bytes_ok l = true <-> Forall (fun b => 0 <= b < 256) l.
Proof.
  unfold bytes_ok; rewrite forallb_forall, Forall_forall.
  split; intros H x Hx; apply byte_ok_spec; auto.
Qed.

Lemma bytes_ok_app a b : bytes_ok (a ++ b) = bytes_ok a && bytes_ok b.
Proof. apply forallb_app. Qed.

Lemma bytes_ok_rev l : bytes_ok (rev l) = bytes_ok l.
Proof.
  apply eq_true_iff_eq; rewrite !bytes_ok_spec.
  split; intros H; [rewrite <- (rev_involutive l)|]; apply Forall_rev; auto.
Qed.

Lemma le_bytes_length n x : length (le_bytes n x) = n.
Proof. revert x; induction n as [|n IH]; intros; simpl; auto. Qed.

Lemma le_bytes_ok n x : bytes_ok (le_bytes n x) = true.
Proof.
  revert x; induction n as [|n IH]; intros x; simpl; auto.
  rewrite IH, andb_true_r. apply byte_ok_spec. apply Z.mod_pos_bound; lia.
Qed.

Lemma le_val_bytes n x : le_val (le_bytes n x) = x mod 2 ^ (8 * Z.of_nat n).
Proof.
  revert x; induction n as [|n IH]; intros x; cbn [le_bytes le_val].
  - change (8 * Z.of_nat 0) with 0. now rewrite Z.mod_1_r.
  - rewrite IH.
    replace (8 * Z.of_nat (S n)) with (8 + 8 * Z.of_nat n) by lia.
    rewrite Z.pow_add_r by lia. change (2 ^ 8) with 256.
    rewrite Z.rem_mul_r by lia. reflexivity.
Qed.

Lemma le_val_range l : bytes_ok l = true -> 0 <= le_val l < 2 ^ (8 * zlen l).
Proof.
  unfold zlen; induction l as [|b l IH]; intros H; cbn [le_val length].
  - change (8 * Z.of_nat 0) with 0; lia.
  - cbn in H. apply andb_true_iff in H as [Hb Hl]. apply byte_ok_spec in Hb.
    specialize (IH Hl).
    replace (8 * Z.of_nat (S (length l))) with (8 + 8 * Z.of_nat (length l)) by lia.
    rewrite Z.pow_add_r by lia. change (2 ^ 8) with 256. lia.
Qed.

Lemma le_bytes_val l : bytes_ok l = true -> le_bytes (length l) (le_val l) = l.
Proof.
  induction l as [|b l IH]; intros H; cbn [le_val length le_bytes]; auto.
  cbn in H. apply andb_true_iff in H as [Hb Hl]. apply byte_ok_spec in Hb.
  replace ((b + 256 * le_val l) mod 256) with b by lia.
  replace ((b + 256 * le_val l) / 256) with (le_val l) by lia.
  now rewrite IH.
Qed.

Lemma le_bytes_mod n x y :
  x mod 2 ^ (8 * Z.of_nat n) = y mod 2 ^ (8 * Z.of_nat n) -> le_bytes n x = le_bytes n y.
Proof.
  rewrite <- !le_val_bytes; intros H.
  rewrite <- (le_bytes_val (le_bytes n x)) by apply le_bytes_ok.
  rewrite <- (le_bytes_val (le_bytes n y)) by apply le_bytes_ok.
  rewrite !le_bytes_length; congruence.
Qed.

Lemma be_bytes_length n x : length (be_bytes n x) = n.
Proof. unfold be_bytes; rewrite rev_length; apply le_bytes_length. Qed.
Lemma be_bytes_ok n x : bytes_ok (be_bytes n x) = true.
Proof. unfold be_bytes; rewrite bytes_ok_rev; apply le_bytes_ok. Qed.
Lemma be_val_bytes n x : be_val (be_bytes n x) = x mod 2 ^ (8 * Z.of_nat n).
Proof. unfold be_val, be_bytes; rewrite rev_involutive; apply le_val_bytes. Qed.
Lemma be_bytes_val l : bytes_ok l = true -> be_bytes (length l) (be_val l) = l.
Proof.
  intros H; unfold be_bytes, be_val. rewrite <- (rev_length l).
  rewrite le_bytes_val by now rewrite bytes_ok_rev. apply rev_involutive.
Qed.
Lemma be_val_range l : bytes_ok l = true -> 0 <= be_val l < 2 ^ (8 * zlen l).
Proof.
  intros; unfold be_val, zlen; rewrite <- rev_length.
  apply le_val_range; now rewrite bytes_ok_rev.
Qed.

(** Finite sweeps over [0, n) lifted to universally quantified statements. *)
Fixpoint zrange_aux (n : nat) (a : Z) : list Z :=
  match n with O => [] | S n' => a :: zrange_aux n' (a + 1) end.
Lemma zrange_aux_in n a x : a <= x < a + Z.of_nat n -> In x (zrange_aux n a).
Proof.
  revert a; induction n as [|n IH]; intros a H; [lia|].
  cbn. destruct (Z.eq_dec a x); [left; auto|right; apply IH; lia].
Qed.
Lemma sweep (P : Z -> bool) (n : nat) :
  forallb P (zrange_aux n 0) = true -> forall x, 0 <= x < Z.of_nat n -> P x = true.
Proof.
  intros H x Hx. rewrite forallb_forall in H. apply H, zrange_aux_in; lia.
Qed.

(** List facts used throughout. *)
Lemma zlen_nonneg {A} (l : list A) : 0 <= zlen l.
Proof. unfold zlen; lia. Qed.
Lemma zlen_app {A} (a b : list A) : zlen (a ++ b) = zlen a + zlen b.
Proof. unfold zlen; rewrite app_length; lia. Qed.
Lemma zlen_cons {A} (x : A) l : zlen (x :: l) = 1 + zlen l.
Proof. unfold zlen; cbn [length]; lia. Qed.
Lemma zlen_nil {A} : zlen (@nil A) = 0.
Proof. reflexivity. Qed.
Lemma zlen_map {A B} (f : A -> B) l : zlen (map f l) = zlen l.
Proof. unfold zlen; now rewrite map_length. Qed.
Lemma zlen_repeat {A} (a : A) n : 0 <= n -> zlen (zrepeat a n) = n.
Proof. intros; unfold zlen, zrepeat; rewrite repeat_length; lia. Qed.
Lemma zlen_firstn {A} n (l : list A) : 0 <= n -> zlen (zfirstn n l) = Z.min n (zlen l).
Proof. intros; unfold zlen, zfirstn; rewrite firstn_length; lia. Qed.
Lemma zlen_skipn {A} n (l : list A) : 0 <= n -> zlen (zskipn n l) = Z.max 0 (zlen l - n).
Proof. intros; unfold zlen, zskipn; rewrite skipn_length; lia. Qed.
Lemma zfirstn_skipn {A} n (l : list A) : zfirstn n l ++ zskipn n l = l.
Proof. apply firstn_skipn. Qed.
Lemma zfirstn_all {A} n (l : list A) : zlen l <= n -> zfirstn n l = l.
Proof. unfold zlen, zfirstn; intros; apply firstn_all2; lia. Qed.
Lemma zskipn_all {A} n (l : list A) : zlen l <= n -> zskipn n l = [].
Proof. unfold zlen, zskipn; intros; apply skipn_all2; lia. Qed.
Lemma zfirstn_0 {A} n (l : list A) : n <= 0 -> zfirstn n l = [].
Proof. intros; unfold zfirstn; replace (Z.to_nat n) with 0%nat by lia; reflexivity. Qed.
Lemma zskipn_0 {A} n (l : list A) : n <= 0 -> zskipn n l = l.
Proof. intros; unfold zskipn; replace (Z.to_nat n) with 0%nat by lia; reflexivity. Qed.
Lemma skipn_skipn_nat {A} (a b : nat) (l : list A) : skipn a (skipn b l) = skipn (b + a) l.
Proof.
  revert l; induction b as [|b IH]; intros l; [reflexivity|].
  destruct l; [now rewrite !skipn_nil|]. cbn. apply IH.
Qed.
Lemma zskipn_zskipn {A} a b (l : list A) : 0 <= a -> 0 <= b -> zskipn a (zskipn b l) = zskipn (b + a) l.
Proof.
  intros; unfold zskipn; rewrite skipn_skipn_nat; f_equal; lia.
Qed.
Lemma zfirstn_zfirstn {A} a b (l : list A) : zfirstn a (zfirstn b l) = zfirstn (Z.min a b) l.
Proof.
  intros; unfold zfirstn; rewrite firstn_firstn; f_equal; lia.
Qed.
Lemma zfirstn_app_l {A} n (a b : list A) : n <= zlen a -> zfirstn n (a ++ b) = zfirstn n a.
Proof.
  unfold zlen, zfirstn; intros. rewrite firstn_app.
  replace (Z.to_nat n - length a)%nat with 0%nat by lia. cbn. apply app_nil_r.
Qed.
Lemma zfirstn_app_r {A} n (a b : list A) :
  zlen a <= n -> zfirstn n (a ++ b) = a ++ zfirstn (n - zlen a) b.
Proof.
  unfold zlen, zfirstn; intros. rewrite firstn_app.
  rewrite firstn_all2 by lia. f_equal. f_equal. lia.
Qed.
Lemma zskipn_app_l {A} n (a b : list A) : n <= zlen a -> zskipn n (a ++ b) = zskipn n a ++ b.
Proof.
  unfold zlen, zskipn; intros. rewrite skipn_app.
  replace (Z.to_nat n - length a)%nat with 0%nat by lia. reflexivity.
Qed.
Lemma zskipn_app_r {A} n (a b : list A) : zlen a <= n -> zskipn n (a ++ b) = zskipn (n - zlen a) b.
Proof.
  unfold zlen, zskipn; intros. rewrite skipn_app.
  rewrite skipn_all2 by lia. cbn. f_equal. lia.
Qed.
Lemma zfirstn_exact {A} (a b : list A) : zfirstn (zlen a) (a ++ b) = a.
Proof. rewrite zfirstn_app_l by lia. apply zfirstn_all; lia. Qed.
Lemma zskipn_exact {A} (a b : list A) : zskipn (zlen a) (a ++ b) = b.
Proof. rewrite zskipn_app_r by lia. apply zskipn_0; lia. Qed.
Lemma zfirstn_split {A} n m (l : list A) : 0 <= n -> 0 <= m ->
  zfirstn (n + m) l = zfirstn n l ++ zfirstn m (zskipn n l).
Proof.
  intros; unfold zfirstn, zskipn.
  replace (Z.to_nat (n + m)) with (Z.to_nat n + Z.to_nat m)%nat by lia.
  rewrite <- (firstn_skipn (Z.to_nat n) l) at 1.
  destruct (Nat.le_gt_cases (Z.to_nat n) (length l)).
  - rewrite firstn_app, firstn_length, Nat.min_l by lia.
    rewrite (firstn_all2 (firstn _ l)) by (rewrite firstn_length; lia).
    do 2 f_equal; lia.
  - rewrite skipn_all2, app_nil_r by lia. rewrite firstn_nil, app_nil_r.
    rewrite !firstn_all2; auto; try rewrite firstn_length; lia.
Qed.

Lemma rbind_Ok {A B} (x : res A) (f : A -> res B) b :
  rbind x f = Ok b -> exists a, x = Ok a /\ f a = Ok b.
Proof. destruct x; cbn; intros; try discriminate; eauto. Qed.

Lemma rmapM_Ok_map {A B} (f : A -> res B) (g : A -> B) l :
  (forall x, In x l -> f x = Ok (g x)) -> rmapM f l = Ok (map g l).
Proof.
  induction l as [|x l IH]; intros H; cbn; auto.
  rewrite H by (left; auto). cbn. rewrite IH by (intros; apply H; right; auto). reflexivity.
Qed.

Lemma firstn_exact {A} n (a b : list A) : length a = n -> firstn n (a ++ b) = a.
Proof. intros <-. rewrite firstn_app, Nat.sub_diag, firstn_all. cbn. apply app_nil_r. Qed.
Lemma skipn_exact {A} n (a b : list A) : length a = n -> skipn n (a ++ b) = b.
Proof. intros <-. rewrite skipn_app, Nat.sub_diag, skipn_all. reflexivity. Qed.

Lemma Forall_firstn {A} (P : A -> Prop) n l : Forall P l -> Forall P (zfirstn n l).
Proof. intros H. apply Forall_forall. intros x Hx. rewrite Forall_forall in H. apply H. rewrite <- (zfirstn_skipn n l). apply in_or_app. auto. Qed.
Lemma Forall_skipn {A} (P : A -> Prop) n l : Forall P l -> Forall P (zskipn n l).
Proof. intros H. apply Forall_forall. intros x Hx. rewrite Forall_forall in H. apply H. rewrite <- (zfirstn_skipn n l). apply in_or_app. auto. Qed.

Ltac znil := repeat match goal with |- context [zlen (@nil ?A)] => change (zlen (@nil A)) with 0 end.
