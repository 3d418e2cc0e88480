(** * What a header reader yields, whatever the file contains

    [yields b p P]: whenever [p], run on a file with the bytes [b] at a position that is not negative, succeeds, its value
    has the property [P], the bytes are as before and the position is not negative. *)
From Verif Require Import Prelude PreludeFacts ByteOrder FileIO Codecs HeaderIO Chunks.

Definition yields {A} (b : list Z) (p : hP A) (P : A -> Prop) : Prop :=
  forall q a f', 0 <= q -> p (mkFile b q) = Ok (Some (a, f')) -> P a /\ fbytes f' = b /\ 0 <= fpos f'.

Section Rules.
Variable b : list Z.
Hypothesis Hb : bytes_ok b = true.

Lemma y_bind {A C} (p : hP A) (k : A -> hP C) P Q : yields b p P -> (forall a, P a -> yields b (k a) Q) -> yields b (hbind p k) Q.
Proof.
  intros Hp Hk q c f' Hq E. unfold hbind in E. destruct (p (mkFile b q)) as [[[a f1]|]| | |] eqn:E1; cbn [rbind] in E; try discriminate.
  destruct (Hp q a f1 Hq E1) as (Pa & F1 & F2). destruct f1 as [b1 q1]. cbn [fbytes fpos] in *. subst b1. exact (Hk a Pa q1 c f' F2 E).
Qed.
Lemma y_weak {A} (p : hP A) (P Q : A -> Prop) : yields b p P -> (forall a, P a -> Q a) -> yields b p Q.
Proof. intros H HPQ q a f' Hq E. destruct (H q a f' Hq E) as (? & ? & ?). auto. Qed.
Lemma y_ret {A} (a : A) (P : A -> Prop) : P a -> yields b (hret a) P.
Proof. intros H q a' f' Hq E. unfold hret in E. injection E as <- <-. auto. Qed.
Lemma y_fail {A} (P : A -> Prop) : yields b hfail P. Proof. intros q a f' _ E. discriminate. Qed.
Lemma y_ub {A} (P : A -> Prop) : yields b (fun _ => UB) P. Proof. intros q a f' _ E. discriminate. Qed.
Lemma y_abort {A} (P : A -> Prop) : yields b (fun _ => Abort) P. Proof. intros q a f' _ E. discriminate. Qed.
Lemma y_fuel {A} (P : A -> Prop) : yields b (fun _ => OutOfFuel) P. Proof. intros q a f' _ E. discriminate. Qed.
Lemma y_seek n : 0 <= n -> yields b (hseek n) (fun _ => True).
Proof. intros Hn q a f' Hq E. unfold hseek, fseek in E. injection E as <- <-. cbn. auto. Qed.
Lemma y_skip n : 0 <= n -> yields b (hskip n) (fun _ => True).
Proof. intros Hn q a f' Hq E. unfold hskip, fseek in E. injection E as <- <-. cbn [fbytes fpos]. repeat split. lia. Qed.
Lemma y_tell : yields b htell (fun p => 0 <= p).
Proof. intros q a f' Hq E. unfold htell in E. injection E as <- <-. cbn. auto. Qed.
Lemma y_length : yields b hlength (fun n => n = zlen b).
Proof. intros q a f' Hq E. unfold hlength, flength in E. injection E as <- <-. cbn. auto. Qed.
Lemma sub_ok n q : bytes_ok (zfirstn n (zskipn q b)) = true.
Proof.
  apply bytes_ok_spec. apply bytes_ok_spec in Hb. unfold zfirstn, zskipn. rewrite <- (firstn_skipn (Z.to_nat q) b) in Hb. apply Forall_app in Hb. destruct Hb as [_ H].
  rewrite <- (firstn_skipn (Z.to_nat n) (skipn (Z.to_nat q) b)) in H. apply Forall_app in H. apply H.
Qed.
Lemma y_read n : yields b (hread n) (fun d => bytes_ok d = true).
Proof.
  intros q a f' Hq E. unfold hread, fread in E. cbn [fbytes fpos] in E. injection E as <- <-. cbn [fbytes fpos].
  split; [apply sub_ok|]. split; [reflexivity|]. pose proof (zlen_nonneg (zfirstn n (zskipn q b))). lia.
Qed.
Lemma valueOf_range o d n : bytes_ok d = true -> zlen d = n -> 0 <= valueOf o d < 2 ^ (8 * n).
Proof. intros H <-. destruct o; [apply be_val_range|apply le_val_range]; exact H. Qed.
Lemma y_readU o n : yields b (readU o n) (fun v => 0 <= v < 2 ^ (8 * Z.of_nat n)).
Proof.
  intros q a f' Hq E. unfold readU, fread in E. cbn [fbytes fpos] in E. destruct (zlen _ =? _) eqn:E1; [|discriminate]. injection E as <- <-. cbn [fbytes fpos].
  split; [apply valueOf_range; [apply sub_ok|lia]|]. split; [reflexivity|lia].
Qed.
Lemma y_tryU o n : yields b (tryU o n) (fun v => forall x, v = Some x -> 0 <= x < 2 ^ (8 * Z.of_nat n)).
Proof.
  intros q a f' Hq E. unfold tryU, fread in E. cbn [fbytes fpos] in E. injection E as <- <-. cbn [fbytes fpos].
  split; [|split; [reflexivity|pose proof (zlen_nonneg (zfirstn (Z.of_nat n) (zskipn q b))); lia]]. intros x. destruct (zlen _ =? _) eqn:E1; [|discriminate]. intros [= <-]. apply valueOf_range; [apply sub_ok|lia].
Qed.
Lemma y_needU o n : yields b (needU o n) (fun v => 0 <= v < 2 ^ (8 * Z.of_nat n)).
Proof. eapply y_bind; [apply y_tryU|]. intros [x|] H; [apply y_ret; auto|apply y_fail]. Qed.
Lemma y_readU0 o n : yields b (readU0 o n) (fun v => 0 <= v < 2 ^ (8 * Z.of_nat n)).
Proof.
  eapply y_bind; [apply y_tryU|]. intros v H; apply y_ret. destruct v as [x|]; [auto|]. split; [lia|apply Z.pow_pos_nonneg; lia].
Qed.
Lemma y_readTag : yields b readTag (fun _ => True).
Proof.
  intros q a f' Hq E. unfold readTag, fread in E. cbn [fbytes fpos] in E. injection E as <- <-. cbn [fbytes fpos].
  split; [exact I|]. split; [reflexivity|]. pose proof (zlen_nonneg (zfirstn 4 (zskipn q b))). lia.
Qed.
Lemma y_assert {B : Build} (c : bool) : yields b (hassert c) (fun _ => True).
Proof. intros q a f' Hq E. unfold hassert, rassert in E. destruct B, c; cbn in E; try discriminate; injection E as <- <-; cbn; auto. Qed.
Lemma y_lift {A} (r : res A) (P : A -> Prop) : (forall a, r = Ok a -> P a) -> yields b (hlift r) P.
Proof. intros H q a f' Hq E. unfold hlift in E. destruct r; cbn in E; try discriminate. injection E as <- <-. cbn. auto. Qed.

Lemma y_chunkLoop {S} o wrap (body : S -> list Z -> Z -> hP S) (P : S -> Prop) :
  (forall x, 0 <= wrap x) -> (forall s tag n, P s -> 0 <= n < 2 ^ 32 -> yields b (body s tag n) P) ->
  forall fuel size index s, P s -> yields b (chunkLoop o wrap body fuel size index s) P.
Proof.
  intros Hw Hbody fuel. induction fuel as [|fuel IH]; intros size index s Hs; cbn [chunkLoop]; destruct (negb (index <? size)).
  - now apply y_ret.
  - apply y_fuel.
  - now apply y_ret.
  - eapply y_bind; [apply y_readTag|]. intros tag _. eapply y_bind; [apply y_readU0|]. intros n Hn. eapply y_bind; [apply Hbody; [exact Hs|exact Hn]|].
    intros s' Hs'. cbv zeta. eapply y_bind; [apply y_seek, Hw|]. intros _ _. apply IH. exact Hs'.
Qed.
End Rules.

Lemma bppPCM_val w c x : bppPCM w c = Ok x -> x = u64 (Z.quot (w + 7) 8 * c) /\ - 2 ^ 31 <= Z.quot (w + 7) 8 * c < 2 ^ 31.
Proof.
  unfold bppPCM, ck32. destruct (inS 32 _) eqn:E; [|discriminate]. cbn [rbind]. intros [= <-]. split; [reflexivity|].
  unfold inS in E. change (2 ^ (32 - 1)) with (2 ^ 31) in E. lia.
Qed.
