(** * Packets: all the channels *)
From Verif Require Import Prelude PreludeFacts MetadataProofs ALACBits ALACGolomb ALACGolombProofs ALACPredict ALACCodec ALACCodecProofs ALACElements.

(** ** Storing one channel *)
Lemma storeColumn_spec ys : forall out i s, 0 <= i -> 0 < s -> (ys = [] \/ i + (zlen ys - 1) * s < zlen out) ->
  exists out', storeColumn out i s ys = Ok out' /\ zlen out' = zlen out /\
    forall k, 0 <= k -> nth (Z.to_nat k) out' 0 = if (i <=? k) && ((k - i) mod s =? 0) && ((k - i) / s <? zlen ys) then nth (Z.to_nat ((k - i) / s)) ys 0 else nth (Z.to_nat k) out 0.
Proof.
  induction ys as [|y ys IH]; intros out i s Hi Hs Hr; cbn [storeColumn].
  - exists out. split; [reflexivity|]. split; [reflexivity|]. intros k Hk. change (zlen (@nil Z)) with 0.
    destruct ((i <=? k) && ((k - i) mod s =? 0) && ((k - i) / s <? 0)) eqn:E; [|reflexivity].
    assert (0 <= (k - i) / s) by (apply Z.div_pos; lia). lia.
  - destruct Hr as [Hr|Hr]; [discriminate|]. rewrite zlen_cons in *. pose proof (zlen_nonneg ys).
    assert (Hin : 0 <= i < zlen out) by nia. rewrite aset_in by exact Hin. cbn [rbind]. set (out1 := zfirstn i out ++ y :: zskipn (i + 1) out).
    assert (L1 : zlen out1 = zlen out) by (apply zlen_upd; exact Hin).
    destruct (IH out1 (i + s) s) as (out' & E & L & N); [lia|lia|destruct ys; [left; reflexivity|right; rewrite zlen_cons in *; nia]|].
    exists out'. split; [exact E|]. split; [lia|]. intros k Hk. rewrite N by exact Hk. unfold out1. rewrite nth_upd by (try exact Hin; exact Hk).
    destruct (Z.lt_trichotomy k i) as [C|[C|C]].
    + replace (i + s <=? k) with false by lia. replace (i <=? k) with false by lia. cbn [andb]. replace (k =? i) with false by lia. reflexivity.
    + subst k. replace (i + s <=? i) with false by lia. cbn [andb]. rewrite Z.eqb_refl, Z.leb_refl, Z.sub_diag, Z.mod_0_l, Z.div_0_l by lia.
      cbn [andb Z.eqb Z.to_nat nth]. replace (0 <? 1 + zlen ys) with true by lia. reflexivity.
    + replace (k =? i) with false by lia. replace (i <=? k) with true by lia. cbn [andb].
      assert (EM : (k - (i + s)) mod s = (k - i) mod s) by (replace (k - (i + s)) with (k - i + (-1) * s) by lia; apply Z.mod_add; lia).
      assert (ED : (k - (i + s)) / s = (k - i) / s - 1) by (replace (k - (i + s)) with (k - i + (-1) * s) by lia; rewrite Z.div_add by lia; lia).
      rewrite EM, ED. destruct (Z.leb_spec (i + s) k) as [G|G].
      * assert (1 <= (k - i) / s) by (apply Z.div_le_lower_bound; lia). cbn [andb].
        destruct ((k - i) mod s =? 0) eqn:Em; [|reflexivity]. cbn [andb].
        replace ((k - i) / s - 1 <? zlen ys) with ((k - i) / s <? 1 + zlen ys) by lia.
        destruct ((k - i) / s <? 1 + zlen ys); [|reflexivity]. replace (Z.to_nat ((k - i) / s)) with (S (Z.to_nat ((k - i) / s - 1))) by lia. reflexivity.
      * rewrite Z.mod_small by lia. replace (k - i =? 0) with false by lia. reflexivity.
Qed.

(** [out'] is [out] with channels 0 to [c-1] of [n] frames replaced by those of [xs]. *)
Definition filled (depth n channels c : Z) (xs out out' : list Z) : Prop :=
  zlen out' = zlen out /\
  forall k, 0 <= k -> nth (Z.to_nat k) out' 0 = if (k <? n * channels) && (k mod channels <? c) then kept depth (nth (Z.to_nat k) xs 0) else nth (Z.to_nat k) out 0.
Lemma kept_0 depth : kept depth 0 = 0. Proof. unfold kept. destruct (depth =? 20); reflexivity. Qed.
Lemma filled_0 depth n channels xs out : 0 < channels -> filled depth n channels 0 xs out out.
Proof.
  intros Hc. split; [reflexivity|]. intros k Hk. pose proof (Z.mod_pos_bound k channels Hc). replace (k mod channels <? 0) with false by lia. rewrite andb_false_r. reflexivity.
Qed.
Lemma filled_step depth n channels c xs out out' ls : 0 <= c < channels -> 0 <= n -> n * channels <= zlen out -> column (Z.to_nat n) xs c channels = Ok ls ->
  filled depth n channels c xs out out' -> exists out'', storeColumn out' c channels (map (kept depth) ls) = Ok out'' /\ filled depth n channels (c + 1) xs out out''.
Proof.
  intros Hc Hn Hl Hls [L N]. destruct (column_spec _ _ _ _ _ Hls ltac:(lia) ltac:(lia)) as (Ll & _ & Nl).
  assert (Lz : zlen (map (kept depth) ls) = n) by (unfold zlen; rewrite map_length; lia).
  destruct (storeColumn_spec (map (kept depth) ls) out' c channels) as (out'' & E & L' & N'); [lia|lia| |].
  { destruct (Z.eq_dec n 0) as [->|Nz]; [left; destruct ls; [reflexivity|discriminate]|right; rewrite Lz, L; nia]. }
  exists out''. split; [exact E|]. split; [lia|]. intros k Hk. rewrite N' by exact Hk. rewrite Lz, N by exact Hk.
  pose proof (Z.div_mod k channels ltac:(lia)) as DM. pose proof (Z.mod_pos_bound k channels ltac:(lia)) as MB. set (q := k / channels) in *. set (r := k mod channels) in *.
  assert (Hq : 0 <= q) by (apply Z.div_pos; lia).
  assert (Kn : (k <? n * channels) = (q <? n)) by nia. rewrite Kn.
  destruct (Z.eq_dec r c) as [Er|Er].
  - assert (Ek : k - c = q * channels) by nia. rewrite Ek, Z.mod_mul, Z.div_mul by lia. rewrite Z.eqb_refl. replace (c <=? k) with true by nia. cbn [andb].
    replace (r <? c) with false by lia. rewrite andb_false_r. replace (r <? c + 1) with true by lia. rewrite andb_true_r.
    destruct (Z.ltb_spec q n) as [Q|Q]; [|reflexivity].
    rewrite <- (kept_0 depth) at 1. rewrite map_nth. rewrite Nl by lia. do 3 f_equal. nia.
  - assert (F : (c <=? k) && ((k - c) mod channels =? 0) = false).
    { destruct (Z.leb_spec c k); [|reflexivity]. cbn [andb]. apply Z.eqb_neq. intros X. apply Er. pose proof (Z.div_mod (k - c) channels ltac:(lia)) as D2. rewrite X in D2.
      assert (k = ((k - c) / channels) * channels + c) by lia. unfold r. rewrite H0. rewrite Z.add_comm, Z.mod_add by lia. rewrite Z.mod_small by lia. reflexivity. }
    rewrite F. cbn [andb]. replace (r <? c + 1) with (r <? c) by lia. reflexivity.
Qed.
Lemma filled_all depth n channels xs out out' : 0 < channels -> 0 <= n -> zlen xs = n * channels -> n * channels <= zlen out ->
  filled depth n channels channels xs out out' -> out' = map (kept depth) xs ++ zskipn (n * channels) out.
Proof.
  intros Hc Hn Lx Lo [L N]. assert (P : 0 <= n * channels) by nia. set (T := n * channels) in *. clearbody T.
  assert (L2 : length out' = length (map (kept depth) xs ++ zskipn T out)).
  { rewrite app_length, map_length. unfold zlen, zskipn in *. rewrite skipn_length. lia. }
  apply (nth_ext _ _ 0 0 L2). intros i Hi. specialize (N (Z.of_nat i) ltac:(lia)). rewrite Nat2Z.id in N. rewrite N.
  pose proof (Z.mod_pos_bound (Z.of_nat i) channels Hc). replace (Z.of_nat i mod channels <? channels) with true by lia. rewrite andb_true_r.
  destruct (Z.ltb_spec (Z.of_nat i) T) as [C|C].
  - rewrite app_nth1 by (rewrite map_length; unfold zlen in Lx; lia). rewrite <- (kept_0 depth) at 2. rewrite map_nth. reflexivity.
  - rewrite app_nth2 by (rewrite map_length; unfold zlen in Lx; lia). rewrite map_length. unfold zskipn, zlen in *.
    rewrite <- (firstn_skipn (Z.to_nat T) out) at 1. rewrite app_nth2 by (rewrite firstn_length; lia). rewrite firstn_length. f_equal. lia.
Qed.

(** ** The plan of a packet *)
Lemma tag_plan channels c : 1 <= channels <= 8 -> 0 <= c < channels -> elementTag channels c = ID_SCE \/ (elementTag channels c = ID_CPE /\ c + 2 <= channels).
Proof.
  intros H1 H2. assert (E : In channels [1;2;3;4;5;6;7;8]) by (cbn [In]; lia). assert (E2 : In c [0;1;2;3;4;5;6;7]) by (cbn [In]; lia).
  cbn [In] in E, E2. destruct E as [<-|[<-|[<-|[<-|[<-|[<-|[<-|[<-|[]]]]]]]]]; destruct E2 as [<-|[<-|[<-|[<-|[<-|[<-|[<-|[<-|[]]]]]]]]]; try lia;
    (left; reflexivity) || (right; split; [reflexivity|lia]).
Qed.
Lemma escapeBits_le fr depth n e : escapeBits fr depth n e <= n * depth * e + 48. Proof. unfold escapeBits. destruct (n =? fr); lia. Qed.

(** What the decoder makes of the elements [F] at [p] that stand for channels [c] and up. *)
Definition loopDecodes {W : Arith} (fr depth n channels c : Z) (xs : list Z) (p : Z) (F : fields) : Prop :=
  forall q size l fuel m frames out0 out, bytes_ok q = true -> size + 3 <= zlen q -> p + fbits F <= 8 * size -> holds q p (F ++ l) ->
    (n = fr -> m = n) -> n * channels <= zlen out0 -> filled depth n channels c xs out0 out -> (Z.to_nat (channels - c) <= fuel)%nat -> c < channels ->
    exists out', decodeLoop fuel (cookie fr depth) q size p m c channels frames out = Ok (Decoded false n out') /\ filled depth n channels channels xs out0 out'.

Lemma endSilent_done depth n c channels frames out : channels <= c -> endSilent false depth n c channels frames out = Ok (Decoded false frames out).
Proof. intros H. unfold endSilent. destruct (Z.to_nat channels); cbn [silence]; replace (channels <=? c) with true by lia; reflexivity. Qed.

Lemma encodeLoop_inv {W : Arith} fr depth channels pick xs n : depthOk depth -> 8 < fr < 2 ^ 24 -> 0 <= n <= fr -> 1 <= channels <= 8 -> (forall c, choiceOk (pick c)) ->
  Forall (inRange (container depth)) xs ->
  forall fuel b p c mono stereo lfe b' p', bytes_ok b = true -> 0 <= p -> 0 <= c <= channels ->
  encodeLoop fuel fr depth channels pick b p xs c n mono stereo lfe = Ok (Some (b', p')) ->
  exists F, wrote b p F b' /\ fieldsOk F /\ p' = p + fbits F /\ 0 <= fbits F <= (channels - c) * (n * depth + 55) /\ loopDecodes fr depth n channels c xs p F.
Proof.
  intros Hd Hf Hn Hch Hpick Fx. assert (D16 : 16 <= depth) by (unfold depthOk in Hd; lia). assert (ND : 0 <= n * depth) by nia.
  induction fuel as [|fuel IH]; intros b p c mono stereo lfe b' p' Hb Hp Hc H; cbn [encodeLoop] in H.
  - destruct (Z.leb_spec channels c) as [C|C]; [|discriminate]. assert (b = b') by congruence. assert (p = p') by congruence. subst b' p'.
    exists []. change (fbits []) with 0. split; [apply wrote_nil; exact Hb|]. split; [constructor|]. split; [lia|]. split; [nia|]. intros q size l fuel' m frames out0 out _ _ _ _ _ _ _ _ X. lia.
  - destruct (Z.leb_spec channels c) as [C|C].
    { assert (b = b') by congruence. assert (p = p') by congruence. subst b' p'.
      exists []. change (fbits []) with 0. split; [apply wrote_nil; exact Hb|]. split; [constructor|]. split; [lia|]. split; [nia|]. intros q size l fuel' m frames out0 out _ _ _ _ _ _ _ _ X. lia. }
    destruct (tag_plan channels c Hch ltac:(lia)) as [T|[T T2]]; rewrite T in H; clear T; unfold ID_SCE, ID_CPE, ID_LFE in H; cbn [Z.eqb Pos.eqb] in H.
    + apply rbind_Ok in H. destruct H as (b1 & H1 & H). apply bbWrites_inv in H1; [|repeat constructor; cbn [fst]; lia|exact Hb|exact Hp].
      apply rbind_Ok in H. destruct H as ([b2 p2] & H2 & H). cbn [fst snd] in H.
      apply encodeMono_inv in H2; [|exact Hd|exact Hf|exact Hn|apply Hpick|exact Fx|exact (wrote_bytes _ _ _ _ H1)|lia|lia|lia].
      destruct H2 as (ls & F1 & Hls & W2 & O2 & -> & B2 & D2). pose proof (fbits_nonneg F1 O2) as NF1.
      apply IH in H; [|exact (wrote_bytes _ _ _ _ W2)|lia|lia]. destruct H as (F2 & W3 & O3 & -> & B3 & D3).
      pose proof (escapeBits_le fr depth n 1).
      exists ([(3, 0); (4, mono)] ++ F1 ++ F2). rewrite !fbits_app. change (fbits [(3, 0); (4, mono)]) with 7.
      assert (O1 : fieldsOk [(3, 0); (4, mono)]) by (repeat constructor; cbn [fst]; lia).
      split. { eapply wrote_app; [exact O1|exact Hp|exact H1|]. change (fbits [(3, 0); (4, mono)]) with 7. eapply wrote_app; [exact O2|lia|exact W2|exact W3]. }
      split; [apply fieldsOk_app; split; [exact O1|apply fieldsOk_app; split; assumption]|]. split; [lia|]. split; [nia|].
      intros q size l fuel' m frames out0 out Hq Hs Hl Hh Hm Lo Fo Hfu Hcc. rewrite !fbits_app in Hl. change (fbits [(3, 0); (4, mono)]) with 7 in Hl.
      destruct fuel' as [|fuel']; [lia|]. cbn [decodeLoop]. replace (size <=? p / 8) with false by lia.
      rewrite <- !app_assoc in Hh. cbn [app] in Hh. rewrite (rd_small q size Hq Hs p 3 _ _ Hh) by lia. cbn [rbind]. destruct Hh as [_ Hh].
      change (0 mod 2 ^ 3) with 0. unfold ID_SCE, ID_LFE, ID_CPE. cbn [Z.eqb orb].
      specialize (D2 q size mono m c channels out (F2 ++ l) Hq Hs ltac:(lia)). replace (p + 7 - 4) with (p + 3) in D2 by lia. rewrite D2 by (try exact Hm; exact Hh). clear D2.
      destruct (filled_step depth n channels c xs out0 out ls ltac:(lia) ltac:(lia) Lo Hls Fo) as (out' & Eo & Fo'). rewrite Eo. cbn [rbind].
      destruct Hh as [_ Hh]. apply holds_app in Hh. destruct Hh as [_ Hh]. replace (p + 3 + 4 + fbits F1) with (p + 7 + fbits F1) in Hh by lia.
      destruct (Z.leb_spec channels (c + 1)) as [E|E].
      * rewrite endSilent_done by lia. exists out'. split; [reflexivity|]. replace channels with (c + 1) at 2 by lia. exact Fo'.
      * apply (D3 q size l fuel' n n out0 out'); try assumption; try lia.
    + apply rbind_Ok in H. destruct H as (b1 & H1 & H). apply bbWrites_inv in H1; [|repeat constructor; cbn [fst]; lia|exact Hb|exact Hp].
      apply rbind_Ok in H. destruct H as ([b2 p2] & H2 & H). cbn [fst snd] in H.
      apply encodeStereo_inv in H2; [|exact Hd|exact Hf|exact Hn|apply Hpick|exact Fx|exact (wrote_bytes _ _ _ _ H1)|lia|lia|lia].
      destruct H2 as (ls & rs & F1 & Hls & Hrs & W2 & O2 & -> & B2 & D2). pose proof (fbits_nonneg F1 O2) as NF1.
      apply IH in H; [|exact (wrote_bytes _ _ _ _ W2)|lia|lia]. destruct H as (F2 & W3 & O3 & -> & B3 & D3).
      pose proof (escapeBits_le fr depth n 2).
      exists ([(3, 1); (4, stereo)] ++ F1 ++ F2). rewrite !fbits_app. change (fbits [(3, 1); (4, stereo)]) with 7.
      assert (O1 : fieldsOk [(3, 1); (4, stereo)]) by (repeat constructor; cbn [fst]; lia).
      split. { eapply wrote_app; [exact O1|exact Hp|exact H1|]. change (fbits [(3, 1); (4, stereo)]) with 7. eapply wrote_app; [exact O2|lia|exact W2|exact W3]. }
      split; [apply fieldsOk_app; split; [exact O1|apply fieldsOk_app; split; assumption]|]. split; [lia|]. split; [nia|].
      intros q size l fuel' m frames out0 out Hq Hs Hl Hh Hm Lo Fo Hfu Hcc. rewrite !fbits_app in Hl. change (fbits [(3, 1); (4, stereo)]) with 7 in Hl.
      destruct fuel' as [|fuel']; [lia|]. cbn [decodeLoop]. replace (size <=? p / 8) with false by lia.
      rewrite <- !app_assoc in Hh. cbn [app] in Hh. rewrite (rd_small q size Hq Hs p 3 _ _ Hh) by lia. cbn [rbind]. destruct Hh as [_ Hh].
      change (1 mod 2 ^ 3) with 1. unfold ID_SCE, ID_LFE, ID_CPE. cbn [Z.eqb Pos.eqb orb]. replace (channels <? c + 2) with false by lia.
      specialize (D2 q size stereo m c channels out (F2 ++ l) Hq Hs ltac:(lia)). replace (p + 7 - 4) with (p + 3) in D2 by lia. rewrite D2 by (try exact Hm; exact Hh). clear D2.
      destruct (filled_step depth n channels c xs out0 out ls ltac:(lia) ltac:(lia) Lo Hls Fo) as (out1 & Eo1 & Fo1). rewrite Eo1. cbn [rbind].
      destruct (filled_step depth n channels (c + 1) xs out0 out1 rs ltac:(lia) ltac:(lia) Lo Hrs Fo1) as (out' & Eo & Fo'). rewrite Eo. cbn [rbind]. replace (c + 1 + 1) with (c + 2) in Fo' by lia.
      destruct Hh as [_ Hh]. apply holds_app in Hh. destruct Hh as [_ Hh]. replace (p + 3 + 4 + fbits F1) with (p + 7 + fbits F1) in Hh by lia.
      destruct (Z.leb_spec channels (c + 2)) as [E|E].
      * rewrite endSilent_done by lia. exists out'. split; [reflexivity|]. replace channels with (c + 2) at 2 by lia. exact Fo'.
      * apply (D3 q size l fuel' n n out0 out'); try assumption; try lia.
Qed.

(** ** A packet *)
Lemma alignUp_le p : p <= alignUp p < p + 8 /\ alignUp p mod 8 = 0.
Proof. unfold alignUp. destruct (Z.eqb_spec (p mod 8) 0); lia. Qed.
Lemma zfirstn_bits b q size : zfirstn size b = zfirstn size q -> 0 <= size <= zlen b -> size <= zlen q -> forall i, 0 <= i < 8 * size -> bitAt b i = bitAt q i.
Proof.
  intros E Lb Lq i Hi. unfold bitAt. f_equal. assert (J : 0 <= i / 8 < size) by lia. 
  rewrite <- (zfirstn_skipn size b), <- (zfirstn_skipn size q), E. unfold zfirstn, zskipn, zlen in *.
  rewrite !app_nth1; [reflexivity|rewrite firstn_length; lia|rewrite firstn_length; lia].
Qed.

Lemma bbWriteLoop_room fuel : forall b p v n b', 0 <= p -> 0 < n -> bbWriteLoop fuel b p v n = Ok b' -> p + n <= 8 * zlen b.
Proof.
  induction fuel as [|fuel IH]; intros b p v n b' Hp Hn H; cbn [bbWriteLoop] in H; replace (n <=? 0) with false in H by lia; [discriminate|].
  apply rbind_Ok in H. destruct H as (c & Hg & H). apply (aget_nth _ _ _ 0) in Hg. destruct Hg as [Hj _]. apply rbind_Ok in H. destruct H as (b1 & Hs & H).
  apply aset_inv in Hs. destruct Hs as [_ Hs]. assert (L : zlen b1 = zlen b) by (rewrite Hs; apply zlen_upd; exact Hj).
  set (cur := Z.min (8 - p mod 8) n) in *. destruct (Z.eq_dec (n - cur) 0) as [E|E]; [lia|]. apply IH in H; lia.
Qed.
Lemma bbWrite_room b p v n b' : 0 <= p -> 0 < n -> bbWrite b p v n = Ok b' -> p + n <= 8 * zlen b.
Proof. unfold bbWrite. apply bbWriteLoop_room. Qed.

Lemma encode_decodes {W : Arith} fr depth channels pick b xs n b' size : depthOk depth -> 8 < fr < 2 ^ 24 -> 0 <= n <= fr -> 1 <= channels <= 8 -> (forall c, choiceOk (pick c)) ->
  Forall (inRange (container depth)) xs -> bytes_ok b = true -> zlen xs = n * channels ->
  encode fr depth channels pick b xs n = Ok (Some (b', size)) ->
  bytes_ok b' = true /\ zlen b' = zlen b /\ 0 < size <= zlen b /\ 8 * size <= channels * (n * depth + 55) + 10 /\
  forall q out, bytes_ok q = true -> zfirstn size q = zfirstn size b' -> size + 3 <= zlen q -> n * channels <= zlen out ->
    decode (cookie fr depth) q size fr channels out = Ok (Decoded false n (map (kept depth) xs ++ zskipn (n * channels) out)).
Proof.
  intros Hd Hf Hn Hch Hpick Fx Hb Lx H. unfold encode in H. apply rbind_Ok in H. destruct H as (r & H1 & H). destruct r as [[b1 p1]|]; [|discriminate].
  apply (encodeLoop_inv fr depth channels pick xs n Hd Hf Hn Hch Hpick Fx) in H1; [|exact Hb|lia|lia]. destruct H1 as (F & W1 & O1 & -> & B1 & D1). rewrite Z.add_0_l in *. rewrite Z.sub_0_r in B1.
  apply rbind_Ok in H. destruct H as (b2 & H2 & H). assert (R2 : fbits F + 3 <= 8 * zlen b1) by (apply bbWrite_room in H2; lia).
  apply bbWrite_inv in H2; [|exact (wrote_bytes _ _ _ _ W1)|lia|lia].
  assert (W2 : wrote b 0 (F ++ [(3, ID_END)]) b2) by (eapply wrote_app; [exact O1|lia|exact W1|exact H2]).
  apply rbind_Ok in H. destruct H as (b3 & H3 & H). assert (b3 = b') by congruence. assert (Es : size = alignUp (fbits F + 3) / 8) by congruence. subst b3. clear H.
  pose proof (alignUp_le (fbits F + 3)) as [AL AM].
  assert (W3 : exists G, fieldsOk G /\ wrote b 0 ((F ++ [(3, ID_END)]) ++ G) b' /\ alignUp (fbits F + 3) <= 8 * zlen b).
  { pose proof (wrote_len _ _ _ _ W2) as L2. pose proof (wrote_len _ _ _ _ W1) as L1. unfold bbByteAlign, alignUp in *. destruct (Z.eqb_spec ((fbits F + 3) mod 8) 0) as [E|E].
    - exists []. split; [constructor|]. rewrite app_nil_r. assert (b2 = b') by congruence. subst b2. split; [exact W2|lia].
    - assert (R3 : fbits F + 3 + (8 - (fbits F + 3) mod 8) <= 8 * zlen b2) by (apply bbWrite_room in H3; lia). apply bbWrite_inv in H3; [|exact (wrote_bytes _ _ _ _ W2)|lia|lia].
      exists [(8 - (fbits F + 3) mod 8, 0)]. split; [repeat constructor; cbn [fst]; lia|]. split; [|lia].
      eapply wrote_app; [apply fieldsOk_app; split; [exact O1|repeat constructor; cbn [fst]; lia]|lia|exact W2|].
      rewrite fbits_app. change (fbits [(3, ID_END)]) with 3. rewrite Z.add_0_l. exact H3. }
  destruct W3 as (G & OG & W3 & R3).
  split; [exact (wrote_bytes _ _ _ _ W3)|]. split; [exact (wrote_len _ _ _ _ W3)|]. split; [lia|]. split; [lia|].
  intros q out Hq Eq Lq Lo. unfold decode. replace (channels <=? 0) with false by lia.
  destruct W3 as (L3 & O3 & _ & HH). apply holds_app in HH. destruct HH as [HH _]. apply holds_app in HH. destruct HH as [HF _].
  assert (HQ : holds q 0 (F ++ [])).
  { rewrite app_nil_r. apply (holds_ext b'); [exact O1| |exact HF]. intros i Hi. apply (zfirstn_bits b' q size); [symmetry; exact Eq|lia|lia|lia]. }
  destruct (D1 q size [] (Z.to_nat (8 * size + 1)) fr fr out out Hq Lq ltac:(lia) HQ ltac:(lia) Lo (filled_0 depth n channels xs out ltac:(lia)) ltac:(lia) ltac:(lia)) as (out' & E & Fo).
  rewrite E. do 2 f_equal. apply (filled_all depth n channels xs out out'); try assumption; lia.
Qed.
