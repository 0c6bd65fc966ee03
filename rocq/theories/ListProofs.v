(** Refinement of the linked list to sequences. *)
From Coq Require Import ZArith List Bool Lia ZifyBool ZifyNat.
From Verif Require Import Base ListModel ListSpec.
Import ListNotations.
Local Open Scope Z_scope.

(** [seg h p as s q]: from pointer p, the nodes [as] carry [s] and end with pointer q. *)
Fixpoint seg {E} (h : heap E) (p : option addr) (ads : list addr) (s : list E) (q : option addr) : Prop :=
  match ads, s with
  | [], [] => p = q
  | a :: ads', e :: s' => p = Some a /\ exists nx, h a = Some (nx, e) /\ seg h nx ads' s' q
  | _, _ => False
  end.

Lemma seg_len : forall E (h : heap E) ads s p q, seg h p ads s q -> length ads = length s.
Proof.
  induction ads; destruct s; simpl; intros; auto; try tauto.
  destruct H as (_ & nx & _ & H). f_equal. eauto.
Qed.

Lemma seg_app : forall E (h : heap E) a1 s1 a2 s2 p q, length a1 = length s1 ->
  (seg h p (a1 ++ a2) (s1 ++ s2) q <-> exists m, seg h p a1 s1 m /\ seg h m a2 s2 q).
Proof.
  induction a1; destruct s1; simpl; intros; try discriminate.
  - split; [intros; exists p; auto | intros (m & -> & H1); auto].
  - injection H as H. split.
    + intros (-> & nx & Ha & Hs). apply IHa1 in Hs; auto. destruct Hs as (m & ? & ?).
      exists m. split; auto. split; auto. exists nx. auto.
    + intros (m & (-> & nx & Ha & Hs) & Hm). split; auto. exists nx. split; auto.
      apply IHa1; auto. exists m; auto.
Qed.

Lemma seg_upd : forall E (h : heap E) a v ads s p q, ~ In a ads ->
  seg h p ads s q -> seg (upd h a v) p ads s q.
Proof.
  induction ads; destruct s; simpl; intros; try tauto.
  destruct H0 as (-> & nx & Ha & Hs). split; auto. exists nx. split.
  - unfold upd. destruct (Nat.eqb_spec a a0); auto. subst. tauto.
  - apply IHads; tauto.
Qed.

Lemma seg_alloc : forall E (h : heap E) ads s p q a, seg h p ads s q -> In a ads -> h a <> None.
Proof.
  induction ads; destruct s; simpl; intros; try tauto.
  destruct H as (-> & nx & Ha & Hs). destruct H0; [subst; congruence | eauto].
Qed.

Definition rep {E} (l : lst E) (ads : list addr) (s : list E) : Prop :=
  seg (mem l) (head l) ads s None /\ NoDup ads /\ nb_elt l = Z.of_nat (length s).

Lemma walk_seg : forall E (h : heap E) n a1 s1 p q, seg h p a1 s1 q -> n = length s1 ->
  walk h n p = Some q.
Proof.
  induction n; intros.
  - destruct s1; try discriminate. destruct a1; simpl in *; congruence || tauto.
  - destruct s1; try discriminate. destruct a1; simpl in H; [tauto|].
    destruct H as (-> & nx & Ha & Hs). simpl. rewrite Ha. eapply IHn; eauto.
Qed.

(** Split a represented list at a position. *)
Lemma seg_split : forall E (h : heap E) ads s p q n, seg h p ads s q -> (n < length s)%nat ->
  exists a1 a a2 s1 e s2 nx, ads = a1 ++ a :: a2 /\ s = s1 ++ e :: s2 /\ length a1 = n /\ length s1 = n
   /\ seg h p a1 s1 (Some a) /\ h a = Some (nx, e) /\ seg h nx a2 s2 q.
Proof.
  intros E h ads s p q n H0 H. pose proof (seg_len _ _ _ _ _ _ H0) as Hl.
  destruct (nth_error s n) as [e|] eqn:He. 2: { apply nth_error_None in He. lia. }
  destruct (nth_error ads n) as [a|] eqn:Ha. 2: { apply nth_error_None in Ha. lia. }
  apply nth_error_split in He. destruct He as (s1 & s2 & -> & Hs1).
  apply nth_error_split in Ha. destruct Ha as (a1 & a2 & -> & Ha1).
  apply seg_app in H0; [|lia]. destruct H0 as (m & H1 & (-> & nx & Hh & H2)).
  exists a1, a, a2, s1, e, s2, nx. repeat split; auto.
Qed.

Lemma rep_init : forall E (h : heap E), rep (list_init h) [] [].
Proof. intros. repeat split; simpl; auto. constructor. Qed.

Lemma nodup_mid : forall (a : addr) a1 a2, NoDup (a1 ++ a :: a2) -> ~ In a a1 /\ ~ In a a2 /\ NoDup (a1 ++ a2).
Proof.
  intros. pose proof (NoDup_remove_1 _ _ _ H). apply NoDup_remove_2 in H.
  rewrite in_app_iff in H. tauto.
Qed.

Lemma nodup_ins : forall (b : addr) a1 a2, NoDup (a1 ++ a2) -> ~ In b (a1 ++ a2) -> NoDup (a1 ++ b :: a2).
Proof.
  induction a1; simpl; intros.
  - constructor; auto.
  - inversion H; subst. constructor.
    + rewrite in_app_iff in *. simpl. intros [?|[?|?]]; subst; tauto.
    + apply IHa1; tauto.
Qed.

Lemma upd_same : forall E (h : heap E) a v, upd h a v a = v.
Proof. intros. unfold upd. rewrite Nat.eqb_refl. auto. Qed.

Lemma upd_other : forall E (h : heap E) a b v, a <> b -> upd h a v b = h b.
Proof. intros. unfold upd. destruct (Nat.eqb_spec a b); congruence. Qed.

Definition same_outside {E} (h h' : heap E) (ads : list addr) (al : option addr) : Prop :=
  forall b, ~ In b ads -> al <> Some b -> h' b = h b.

Lemma list_add_ok : forall E (l : lst E) ads s el pos a,
  rep l ads s -> mem l a = None -> -1 <= pos ->
  exists l' ads', list_add (Some a) l el pos = Some (l', Z.of_nat (length (seq_insert s el pos)))
    /\ rep l' ads' (seq_insert s el pos) /\ same_outside (mem l) (mem l') ads (Some a)
    /\ (forall b, In b ads' -> b = a \/ In b ads).
Proof.
  intros E l ads s el pos a (Hseg & Hnd & Hnb) Hfresh Hpos.
  assert (Hna : ~ In a ads). { intro. eapply seg_alloc; eauto. }
  assert (Hlen : length (seq_insert s el pos) = S (length s)).
  { unfold seq_insert. destruct ((0 <=? pos) && (pos <? Z.of_nat (length s))) eqn:Hb.
    - rewrite app_length. simpl. rewrite firstn_length, skipn_length. lia.
    - rewrite app_length. simpl. lia. }
  unfold list_add. rewrite Hlen.
  destruct (Z.eqb_spec (nb_elt l) 0) as [H0|H0].
  - destruct s; [|simpl in Hnb; lia]. destruct ads; [|simpl in Hseg; tauto]. simpl in Hseg.
    eexists _, [a]. split.
    { f_equal. f_equal. simpl. lia. }
    split; [|split].
    + assert (Hs : seq_insert [] el pos = [el]).
      { unfold seq_insert. simpl. destruct (0 <=? pos) eqn:?, (pos <? 0) eqn:?; simpl; auto; lia. }
      rewrite Hs. repeat split; simpl; auto.
      * exists None. rewrite upd_same. auto.
      * repeat constructor. auto.
      * lia.
    + intros b _ Hb. simpl. apply upd_other. congruence.
    + simpl. intros b [<-|[]]; auto.
  - destruct (orb (Z.eqb pos (-1)) (Z.leb (nb_elt l) pos)) eqn:Hend.
    + (* at the end *)
      replace (nb_elt l =? 0) with false by lia.
      assert (Hins : seq_insert s el pos = s ++ [el]).
      { unfold seq_insert. destruct ((0 <=? pos) && (pos <? Z.of_nat (length s))) eqn:Hb; auto. lia. }
      destruct (seg_split _ _ _ _ _ _ (length s - 1)%nat Hseg ltac:(lia))
        as (a1 & t & a2 & s1 & e & s2 & nx & -> & -> & Hla & Hls & H1 & Hh & H2).
      rewrite app_length in Hls. simpl in Hls. assert (s2 = []) by (destruct s2; simpl in *; auto; lia). subst s2.
      assert (a2 = []) by (destruct a2; simpl in H2; tauto). subst a2. simpl in H2. subst nx.
      rewrite (walk_seg _ _ (Z.to_nat (nb_elt l - 1)) _ _ _ _ H1).
      2: { rewrite Hnb. rewrite app_length in *. simpl in *. lia. }
      simpl. rewrite Hh. rewrite Z.eqb_refl.
      destruct (nodup_mid _ _ _ Hnd) as (Ht1 & _ & Hnd').
      eexists _, (a1 ++ [t; a]). split.
      { f_equal. f_equal. lia. }
      rewrite in_app_iff in Hna. simpl in Hna.
      split; [|split].
      * rewrite Hins. repeat split.
        -- simpl. rewrite <- app_assoc. simpl. apply seg_app.
           { rewrite (seg_len _ _ _ _ _ _ H1). auto. }
           exists (Some t). split.
           { apply seg_upd; [tauto|]. apply seg_upd; tauto. }
           simpl. split; auto. exists (Some a). rewrite upd_other by (intro; subst; tauto).
           rewrite upd_same. split; auto. split; auto. exists None. rewrite upd_same. auto.
        -- replace (a1 ++ [t; a]) with ((a1 ++ [t]) ++ [a]) by (rewrite <- app_assoc; auto).
           apply nodup_ins; rewrite app_nil_r; auto. rewrite in_app_iff. simpl. tauto.
        -- simpl. rewrite Hnb. rewrite !app_length. simpl. lia.
      * intros b Hb Hb2. simpl. rewrite in_app_iff in Hb. simpl in Hb.
        rewrite upd_other by congruence. apply upd_other. intro; subst; tauto.
      * intros b. rewrite !in_app_iff. simpl. intuition.
    + apply orb_false_iff in Hend. destruct Hend as (He1 & He2).
      apply Z.eqb_neq in He1. apply Z.leb_gt in He2.
      assert (Hp0 : 0 <= pos) by lia.
      assert (Hins : seq_insert s el pos = firstn (Z.to_nat pos) s ++ el :: skipn (Z.to_nat pos) s).
      { unfold seq_insert. replace ((0 <=? pos) && (pos <? Z.of_nat (length s))) with true by lia. auto. }
      destruct (Z.eqb_spec pos 0) as [->|Hp].
      * simpl in Hins. eexists _, (a :: ads). split.
        { f_equal. f_equal. lia. }
        split; [|split].
        -- rewrite Hins. repeat split; simpl; auto.
           ++ exists (head l). rewrite upd_same. split; auto. apply seg_upd; auto.
           ++ constructor; auto.
           ++ lia.
        -- intros b Hb Hb2. apply upd_other. congruence.
        -- simpl. intuition.
      * (* middle *)
        destruct (seg_split _ _ _ _ _ _ (Z.to_nat (pos - 1)) Hseg ltac:(lia))
          as (a1 & t & a2 & s1 & e & s2 & nx & -> & -> & Hla & Hls & H1 & Hh & H2).
        rewrite (walk_seg _ _ (Z.to_nat (pos - 1)) _ _ _ _ H1) by lia.
        simpl. rewrite Hh. replace (pos =? nb_elt l) with false by lia.
        destruct (nodup_mid _ _ _ Hnd) as (Ht1 & Ht2 & Hnd').
        eexists _, (a1 ++ t :: a :: a2). split.
        { f_equal. f_equal. lia. }
        rewrite in_app_iff in Hna. simpl in Hna.
        assert (Hfn : firstn (Z.to_nat pos) (s1 ++ e :: s2) = s1 ++ [e]).
        { replace (Z.to_nat pos) with (length (s1 ++ [e])) by (rewrite app_length; simpl; lia).
          replace (s1 ++ e :: s2) with ((s1 ++ [e]) ++ s2) by (rewrite <- app_assoc; auto).
          rewrite firstn_app, Nat.sub_diag, firstn_all, firstn_O, app_nil_r. auto. }
        assert (Hsk : skipn (Z.to_nat pos) (s1 ++ e :: s2) = s2).
        { replace (Z.to_nat pos) with (length (s1 ++ [e])) by (rewrite app_length; simpl; lia).
          replace (s1 ++ e :: s2) with ((s1 ++ [e]) ++ s2) by (rewrite <- app_assoc; auto).
          rewrite skipn_app, Nat.sub_diag, skipn_all. auto. }
        split; [|split].
        -- rewrite Hins, Hfn, Hsk. repeat split.
           ++ simpl. rewrite <- app_assoc. simpl. apply seg_app.
              { rewrite (seg_len _ _ _ _ _ _ H1). auto. }
              exists (Some t). split.
              { apply seg_upd; [tauto|]. apply seg_upd; tauto. }
              simpl. split; auto. exists (Some a). rewrite upd_other by (intro; subst; tauto).
              rewrite upd_same. split; auto. split; auto. exists nx. rewrite upd_same. split; auto.
              apply seg_upd; [tauto|]. apply seg_upd; tauto.
           ++ replace (a1 ++ t :: a :: a2) with ((a1 ++ [t]) ++ a :: a2) by (rewrite <- app_assoc; auto).
              apply nodup_ins; rewrite <- app_assoc; auto. rewrite in_app_iff. simpl. tauto.
           ++ simpl. rewrite Hnb. rewrite !app_length. simpl. lia.
        -- intros b Hb Hb2. simpl. rewrite in_app_iff in Hb. simpl in Hb.
           rewrite upd_other by congruence. apply upd_other. intro; subst; tauto.
        -- intros b. rewrite !in_app_iff. simpl. intuition.
Qed.

Lemma list_add_nomem : forall E (l : lst E) ads s el pos,
  rep l ads s -> -1 <= pos ->
  exists l', list_add None l el pos = Some (l', OSIP_NOMEM)
    /\ rep l' ads s /\ (forall b, mem l' b = mem l b).
Proof.
  intros E l ads s el pos (Hseg & Hnd & Hnb) Hpos.
  unfold list_add.
  destruct (Z.eqb_spec (nb_elt l) 0) as [H0|H0].
  - destruct s; [|simpl in Hnb; lia]. destruct ads; [|simpl in Hseg; tauto].
    eexists. split; [reflexivity|]. repeat split; auto.
  - destruct (orb (Z.eqb pos (-1)) (Z.leb (nb_elt l) pos)) eqn:Hend.
    + replace (nb_elt l =? 0) with false by lia.
      destruct (seg_split _ _ _ _ _ _ (length s - 1)%nat Hseg ltac:(lia))
        as (a1 & t & a2 & s1 & e & s2 & nx & -> & -> & Hla & Hls & H1 & Hh & H2).
      rewrite app_length in Hls. simpl in Hls. assert (s2 = []) by (destruct s2; simpl in *; auto; lia). subst s2.
      assert (a2 = []) by (destruct a2; simpl in H2; tauto). subst a2. simpl in H2. subst nx.
      rewrite (walk_seg _ _ (Z.to_nat (nb_elt l - 1)) _ _ _ _ H1).
      2: { rewrite Hnb. rewrite app_length in *. simpl in *. lia. }
      simpl. rewrite Hh. rewrite Z.eqb_refl.
      destruct (nodup_mid _ _ _ Hnd) as (Ht1 & _ & Hnd').
      assert (Hsame : forall b, upd (mem l) t (Some (None, e)) b = mem l b).
      { intro b. unfold upd. destruct (Nat.eqb_spec t b); subst; auto. }
      eexists. split; [reflexivity|]. split.
      * repeat split; auto. simpl. apply seg_app.
        { rewrite (seg_len _ _ _ _ _ _ H1). auto. }
        exists (Some t). split; [apply seg_upd; auto|]. simpl. split; auto. exists None.
        rewrite upd_same. auto.
      * auto.
    + apply orb_false_iff in Hend. destruct Hend as (He1 & He2).
      apply Z.eqb_neq in He1. apply Z.leb_gt in He2.
      destruct (Z.eqb_spec pos 0) as [->|Hp].
      * eexists. split; [reflexivity|]. repeat split; auto.
      * destruct (seg_split _ _ _ _ _ _ (Z.to_nat (pos - 1)) Hseg ltac:(lia))
          as (a1 & t & a2 & s1 & e & s2 & nx & -> & -> & Hla & Hls & H1 & Hh & H2).
        rewrite (walk_seg _ _ (Z.to_nat (pos - 1)) _ _ _ _ H1) by lia.
        simpl. rewrite Hh. replace (pos =? nb_elt l) with false by lia.
        destruct (nodup_mid _ _ _ Hnd) as (Ht1 & Ht2 & Hnd').
        assert (Hsame : forall b, upd (mem l) t (Some (nx, e)) b = mem l b).
        { intro b. unfold upd. destruct (Nat.eqb_spec t b); subst; auto. }
        eexists. split; [reflexivity|]. split.
        -- repeat split; auto. simpl. apply seg_app.
           { rewrite (seg_len _ _ _ _ _ _ H1). auto. }
           exists (Some t). split; [apply seg_upd; auto|]. simpl. split; auto. exists nx.
           rewrite upd_same. split; auto. apply seg_upd; auto.
        -- auto.
Qed.

Lemma list_get_ok : forall E (l : lst E) ads s pos,
  rep l ads s -> list_get l pos = Some (seq_nth s pos).
Proof.
  intros E l ads s pos (Hseg & Hnd & Hnb). unfold list_get, seq_nth.
  destruct (Z.ltb_spec pos 0); simpl; auto.
  destruct (Z.leb_spec (nb_elt l) pos).
  - assert (nth_error s (Z.to_nat pos) = None) as -> by (apply nth_error_None; lia). auto.
  - destruct (seg_split _ _ _ _ _ _ (Z.to_nat pos) Hseg ltac:(lia))
      as (a1 & t & a2 & s1 & e & s2 & nx & -> & -> & Hla & Hls & H1 & Hh & H2).
    rewrite (walk_seg _ _ (Z.to_nat pos) _ _ _ _ H1) by lia.
    simpl. rewrite Hh. rewrite nth_error_app2 by lia. rewrite Hls, Nat.sub_diag. auto.
Qed.

Lemma list_remove_ok : forall E (l : lst E) ads s pos,
  rep l ads s -> 0 <= pos < Z.of_nat (length s) ->
  exists l' ads', list_remove l pos = Some (l', Z.of_nat (length (seq_delete s pos)))
    /\ rep l' ads' (seq_delete s pos) /\ same_outside (mem l) (mem l') ads None
    /\ (forall b, In b ads' -> In b ads).
Proof.
  intros E l ads s pos (Hseg & Hnd & Hnb) Hpos. unfold list_remove.
  replace ((pos <? 0) || (nb_elt l <=? pos)) with false by lia.
  assert (Hlen : length (seq_delete s pos) = (length s - 1)%nat).
  { unfold seq_delete. rewrite app_length, firstn_length, skipn_length. lia. }
  rewrite Hlen.
  destruct (Z.eqb_spec pos 0) as [->|Hp].
  - destruct s as [|e s]; [simpl in *; lia|]. destruct ads as [|t ads]; simpl in Hseg; [tauto|].
    destruct Hseg as (Hhd & nx & Hh & Hs). rewrite Hhd. simpl. rewrite Hh.
    inversion Hnd; subst. eexists _, ads. split.
    { f_equal. f_equal. simpl in *. lia. }
    split; [|split].
    + repeat split; simpl; auto. { apply seg_upd; auto. } simpl in Hnb. unfold seq_delete. simpl. lia.
    + intros b Hb _. apply upd_other. simpl in Hb. tauto.
    + simpl. auto.
  - destruct (seg_split _ _ _ _ _ _ (Z.to_nat (pos - 1)) Hseg ltac:(lia))
      as (a1 & t & a2 & s1 & e & s2 & nx & -> & -> & Hla & Hls & H1 & Hh & H2).
    rewrite (walk_seg _ _ (Z.to_nat (pos - 1)) _ _ _ _ H1) by lia.
    simpl. rewrite Hh.
    rewrite app_length in Hpos. simpl in Hpos.
    destruct s2 as [|f s2]; [simpl in *; lia|]. destruct a2 as [|r a2]; simpl in H2; [tauto|].
    destruct H2 as (-> & rnx & Hr & Hs2). simpl. rewrite Hr.
    destruct (nodup_mid _ _ _ Hnd) as (Ht1 & Ht2 & Hnd').
    destruct (nodup_mid _ _ _ Hnd') as (Hr1 & Hr2 & Hnd'').
    simpl in Ht2.
    assert (Hdel : seq_delete (s1 ++ e :: f :: s2) pos = s1 ++ e :: s2).
    { unfold seq_delete. replace (Z.to_nat pos) with (length (s1 ++ [e])) by (rewrite app_length; simpl; lia).
      replace (s1 ++ e :: f :: s2) with ((s1 ++ [e]) ++ f :: s2) by (rewrite <- app_assoc; auto).
      rewrite firstn_app, Nat.sub_diag, firstn_all, firstn_O, app_nil_r.
      rewrite skipn_app, skipn_all2 by lia.
      replace (S (length (s1 ++ [e])) - length (s1 ++ [e]))%nat with 1%nat by lia. simpl.
      rewrite <- app_assoc. auto. }
    eexists _, (a1 ++ t :: a2). split.
    { f_equal. f_equal. rewrite Hnb. rewrite !app_length. simpl. lia. }
    split; [|split].
    + rewrite Hdel. repeat split.
      * simpl. apply seg_app.
        { rewrite (seg_len _ _ _ _ _ _ H1). auto. }
        exists (Some t). split.
        { apply seg_upd; auto. apply seg_upd; auto. }
        simpl. split; auto. exists rnx. rewrite upd_other by (intro; subst; tauto).
        rewrite upd_same. split; auto. apply seg_upd; auto. apply seg_upd; tauto.
      * apply nodup_ins; auto. rewrite in_app_iff. tauto.
      * simpl. rewrite Hnb, !app_length. simpl. lia.
    + intros b Hb _. rewrite in_app_iff in Hb. simpl in Hb. simpl.
      rewrite !upd_other; auto; intro; subst; tauto.
    + intros b. rewrite !in_app_iff. simpl. tauto.
Qed.

Lemma lstep_ok : forall E (l : lst E) ads s o,
  rep l ads s -> pos_ok o ->
  match o with LAdd (Some a) _ _ => mem l a = None | _ => True end ->
  exists l' ads', lstep l o = Some (l', snd (seq_step s o)) /\ rep l' ads' (fst (seq_step s o)).
Proof.
  intros E l ads s o Hrep Hpos Hal. destruct o as [[a|] el pos|pos|pos|]; simpl in *.
  - destruct (list_add_ok _ _ _ _ el pos a Hrep Hal Hpos) as (l' & ads' & -> & Hr & _). eauto.
  - destruct (list_add_nomem _ _ _ _ el pos Hrep Hpos) as (l' & -> & Hr & _). eauto.
  - rewrite (list_get_ok _ _ _ _ pos Hrep). eauto.
  - destruct ((0 <=? pos) && (pos <? Z.of_nat (length s))) eqn:Hb.
    + destruct (list_remove_ok _ _ _ _ pos Hrep ltac:(lia)) as (l' & ads' & -> & Hr & _). eauto.
    + unfold list_remove. destruct Hrep as (H1 & H2 & H3).
      replace ((pos <? 0) || (nb_elt l <=? pos)) with true by lia.
      eexists _, ads. split; [reflexivity|]. repeat split; auto.
  - destruct Hrep as (H1 & H2 & H3). unfold list_size. rewrite H3.
    eexists _, ads. split; [reflexivity|]. repeat split; auto.
Qed.

Lemma lrun_ok : forall E ops (l : lst E) ads s,
  rep l ads s -> Forall pos_ok ops -> malloc_ok l ops ->
  exists l' ads', lrun l ops = Some (l', snd (seq_run s ops)) /\ rep l' ads' (fst (seq_run s ops)).
Proof.
  induction ops as [|o ops]; intros l ads s Hrep Hpos Hal; simpl.
  - eauto.
  - inversion Hpos; subst. destruct Hal as (Ha & Hal).
    destruct (lstep_ok _ _ _ _ o Hrep H1 Ha) as (l1 & ads1 & He & Hr1).
    rewrite He. specialize (Hal _ _ He).
    destruct (IHops _ _ _ Hr1 H2 Hal) as (l2 & ads2 & He2 & Hr2).
    rewrite He2. destruct (seq_step s o) as [s1 r]. simpl in *.
    destruct (seq_run s1 ops) as [s2 rs]. simpl in *. eauto.
Qed.

(** Iteration. *)
Lemma has_elem_iff : forall E (l : lst E) p pr pos ads s kept,
  seg (mem l) p ads s None -> nb_elt l = Z.of_nat (kept + length s) -> pos = Z.of_nat kept ->
  has_elem l (mk_iter p pr pos) = match s with [] => false | _ => true end.
Proof.
  intros. unfold has_elem. simpl. destruct s; destruct ads; simpl in H; try tauto.
  - subst. auto.
  - destruct H as (-> & _). simpl in H0. subst pos. apply Z.ltb_lt. lia.
Qed.

Definition at_prev {E} (l : lst E) (pr : loc) (a1 : list addr) (s1 : list E) (p : option addr) : Prop :=
  match pr with
  | LHead => a1 = [] /\ s1 = [] /\ head l = p
  | LNext a => exists a0 s0 e, a1 = a0 ++ [a] /\ s1 = s0 ++ [e] /\ seg (mem l) (head l) a0 s0 (Some a) /\ mem l a = Some (p, e)
  end.

Lemma at_prev_seg : forall E (l : lst E) pr a1 s1 p, at_prev l pr a1 s1 p -> seg (mem l) (head l) a1 s1 p.
Proof.
  intros. destruct pr; simpl in H.
  - destruct H as (-> & -> & H). simpl. auto.
  - destruct H as (a0 & s0 & e & -> & -> & H1 & H2). apply seg_app.
    { eapply seg_len; eauto. } exists (Some a). split; auto. simpl. split; auto. exists p; auto.
Qed.

Lemma visit_loop_ok : forall E (dec : list E -> E -> bool) s2 fuel l pr a1 s1 p a2 seen,
  at_prev l pr a1 s1 p -> seg (mem l) p a2 s2 None -> NoDup (a1 ++ a2) ->
  nb_elt l = Z.of_nat (length s1 + length s2) -> (length s2 < fuel)%nat ->
  exists l' ads', visit_loop fuel dec seen l (mk_iter p pr (Z.of_nat (length s1))) (hd_error s2)
                  = Some (l', seen ++ s2)
    /\ rep l' ads' (s1 ++ seq_kept dec seen s2).
Proof.
  induction s2 as [|e s2]; intros fuel l pr a1 s1 p a2 seen Hpr Hseg Hnd Hnb Hf;
    (destruct fuel as [|fuel]; [simpl in Hf; lia|]); simpl visit_loop.
  - rewrite (has_elem_iff _ _ _ _ _ _ _ _ Hseg Hnb eq_refl).
    exists l, (a1 ++ a2). rewrite app_nil_r. split; auto. simpl. rewrite app_nil_r.
    pose proof (seg_len _ _ _ _ _ _ Hseg). destruct a2; try discriminate. rewrite app_nil_r in *.
    simpl in Hseg. subst. repeat split; auto. { apply at_prev_seg in Hpr. auto. } simpl in Hnb. lia.
  - rewrite (has_elem_iff _ _ _ _ _ _ _ _ Hseg Hnb eq_refl).
    destruct a2 as [|t a2]; simpl in Hseg; [tauto|]. destruct Hseg as (-> & nx & Ht & Hseg).
    destruct (nodup_mid _ _ _ Hnd) as (Hn1 & Hn2 & Hnd').
    destruct (dec seen e) eqn:Hdec.
    + (* remove *)
      unfold list_iterator_remove.
      assert (Hhas : has_elem l (mk_iter (Some t) pr (Z.of_nat (length s1))) = true).
      { unfold has_elem. simpl in *. apply Z.ltb_lt. lia. }
      rewrite Hhas. cbn [deref actual prev ipos]. rewrite Ht.
      assert (Hset : exists l1, set_prev (mk_lst (mem l) (nb_elt l - 1) (head l)) pr nx = Some l1
                /\ at_prev (mk_lst (upd (mem l1) t None) (nb_elt l1) (head l1)) pr a1 s1 nx
                /\ seg (upd (mem l1) t None) nx a2 s2 None
                /\ nb_elt l1 = nb_elt l - 1).
      { destruct pr as [|pa]; simpl in Hpr |- *.
        - destruct Hpr as (-> & -> & Hh). eexists. split; [reflexivity|]. simpl.
          repeat split; auto. apply seg_upd; auto.
        - destruct Hpr as (a0 & s0 & pe & -> & -> & Hs0 & Hpa). rewrite Hpa.
          eexists. split; [reflexivity|]. simpl.
          rewrite in_app_iff in Hn1. simpl in Hn1.
          rewrite <- app_assoc in Hnd'. simpl in Hnd'. destruct (nodup_mid _ _ _ Hnd') as (Hp0 & Hp2 & _).
          split; [|split].
          + exists a0, s0, pe. repeat split; auto.
            * apply seg_upd; [tauto|]. apply seg_upd; auto.
            * rewrite upd_other by (intro; subst; tauto). apply upd_same.
          + apply seg_upd; auto. apply seg_upd; auto.
          + auto. }
      destruct Hset as (l1 & -> & Hpr' & Hseg' & Hnb').
      cbn [ipos prev].
      set (l2 := mk_lst (upd (mem l1) t None) (nb_elt l1) (head l1)) in *.
      assert (Hnb2 : nb_elt l2 = Z.of_nat (length s1 + length s2)).
      { simpl. rewrite Hnb', Hnb. simpl. lia. }
      rewrite (has_elem_iff _ l2 _ _ _ _ _ _ Hseg' Hnb2 eq_refl).
      destruct (IHs2 fuel l2 pr a1 s1 nx a2 (seen ++ [e]) Hpr' Hseg' Hnd' Hnb2 ltac:(simpl in Hf; lia))
        as (l' & ads' & Hv & Hr).
      exists l', ads'. rewrite <- app_assoc in Hv. simpl in Hv.
      split.
      * destruct s2 as [|f s2].
        -- exact Hv.
        -- destruct a2 as [|b a2]; simpl in Hseg'; [tauto|]. destruct Hseg' as (-> & nx2 & Hb & _).
           cbn [deref actual]. cbn [mem l2]. rewrite Hb. exact Hv.
      * simpl. rewrite Hdec. exact Hr.
    + (* move on *)
      unfold list_get_next. cbn [actual]. rewrite Ht.
      assert (Hpr' : at_prev l (LNext t) (a1 ++ [t]) (s1 ++ [e]) nx).
      { simpl. exists a1, s1, e. repeat split; auto. apply at_prev_seg in Hpr. auto. }
      cbn [ipos prev].
      replace (Z.of_nat (length s1) + 1) with (Z.of_nat (length (s1 ++ [e]))) by (rewrite app_length; simpl; lia).
      assert (Hnb2 : nb_elt l = Z.of_nat (length (s1 ++ [e]) + length s2)).
      { rewrite Hnb, app_length. simpl. lia. }
      rewrite (has_elem_iff _ l _ _ _ _ _ _ Hseg Hnb2 eq_refl).
      destruct (IHs2 fuel l (LNext t) (a1 ++ [t]) (s1 ++ [e]) nx a2 (seen ++ [e]) Hpr' Hseg
                  ltac:(rewrite <- app_assoc; auto) Hnb2 ltac:(simpl in Hf; lia))
        as (l' & ads' & Hv & Hr).
      exists l', ads'. rewrite <- app_assoc in Hv. simpl in Hv.
      split.
      * destruct s2 as [|f s2].
        -- destruct a2; simpl in Hseg; [|tauto]. subst nx. exact Hv.
        -- destruct a2 as [|b a2]; simpl in Hseg; [tauto|]. destruct Hseg as (-> & nx2 & Hb & _).
           cbn [deref]. rewrite Hb. exact Hv.
      * simpl. rewrite Hdec. rewrite <- app_assoc in Hr. exact Hr.
Qed.

Lemma visit_ok : forall E (dec : list E -> E -> bool) l ads s fuel,
  rep l ads s -> (length s < fuel)%nat ->
  exists l' ads', visit fuel dec l = Some (l', s) /\ rep l' ads' (seq_kept dec [] s).
Proof.
  intros E dec l ads s fuel (Hseg & Hnd & Hnb) Hf. unfold visit, list_get_first.
  destruct s as [|e s].
  - destruct ads; simpl in Hseg; [|tauto]. simpl in Hnb. rewrite Hnb. simpl.
    destruct fuel; [simpl in Hf; lia|]. simpl. exists l, []. repeat split; auto.
  - replace (nb_elt l <=? 0) with false by (simpl in Hnb; lia).
    pose proof Hseg as Hseg0.
    destruct ads as [|t ads]; simpl in Hseg; [tauto|]. destruct Hseg as (Hh & nx & Ht & Hs).
    assert (Hd : deref (mem l) (head l) = Some (t, (nx, e))). { rewrite Hh. simpl. rewrite Ht. auto. }
    rewrite Hd.
    destruct (visit_loop_ok _ dec (e :: s) fuel l LHead [] [] (head l) (t :: ads) []) as (l' & ads' & Hv & Hr); auto.
    { simpl. auto. }
    exists l', ads'. split; auto.
Qed.

Lemma rep_behaves : forall E (l : lst E) ads s, rep l ads s -> behaves l s.
Proof.
  intros E l ads s Hr ops Hp Hm. destruct (lrun_ok _ _ _ _ _ Hr Hp Hm) as (l' & _ & He & _). eauto.
Qed.

Lemma reachable_rep : forall E (l : lst E) s, reachable l s -> exists ads, rep l ads s.
Proof.
  intros E l s (h & ops & rs & Hp & Hm & He & ->).
  destruct (lrun_ok _ _ _ _ _ (rep_init _ h) Hp Hm) as (l' & ads & He' & Hr).
  rewrite He in He'. injection He' as <- _. eauto.
Qed.

(** Memory of others is left alone. *)
Lemma lrun_frame : forall E (h : heap E) ops l ads s l' rs,
  rep l ads s -> (forall a, In a ads -> h a = None) -> (forall b, h b <> None -> mem l b = h b) ->
  Forall pos_ok ops -> malloc_ok l ops -> lrun l ops = Some (l', rs) ->
  forall b, h b <> None -> mem l' b = h b.
Proof.
  induction ops as [|o ops]; intros l ads s l' rs Hrep Hads Hfr Hpos Hal He b Hb; simpl in He.
  - injection He as <- _. auto.
  - inversion Hpos; subst. destruct Hal as (Ha & Hal).
    destruct (lstep l o) as [[l1 r]|] eqn:Hst; [|discriminate].
    specialize (Hal _ _ eq_refl).
    destruct (lrun l1 ops) as [[l2 rs2]|] eqn:Hrun; [|discriminate].
    injection He as <- _.
    assert (Hgoal : exists ads1 s1, rep l1 ads1 s1 /\ (forall a, In a ads1 -> h a = None)
                     /\ (forall b, h b <> None -> mem l1 b = h b)).
    { destruct o as [[a|] el pos|pos|pos|]; simpl in *.
      - destruct (list_add_ok _ _ _ _ el pos a Hrep Ha H1) as (l1' & ads1 & Hadd & Hr & Hso & Hsub).
        rewrite Hadd in Hst. injection Hst as <- _.
        assert (Hha : h a = None). { destruct (h a) eqn:Hx; auto. rewrite <- Ha, Hfr; congruence. }
        exists ads1, (seq_insert s el pos). repeat split; auto; try apply Hr.
        + intros a0 Hi. destruct (Hsub _ Hi); subst; auto.
        + intros b0 Hb0. apply eq_trans with (mem l b0); auto. apply Hso.
          * intro Hi. apply Hads in Hi. congruence.
          * congruence.
      - destruct (list_add_nomem _ _ _ _ el pos Hrep H1) as (l1' & Hadd & Hr & Hso).
        rewrite Hadd in Hst. injection Hst as <- _.
        exists ads, s. repeat split; auto; try apply Hr. intros. rewrite Hso. auto.
      - destruct (list_get l pos); [|discriminate]. injection Hst as <- _.
        exists ads, s. auto.
      - destruct ((0 <=? pos) && (pos <? Z.of_nat (length s))) eqn:Hbd.
        + destruct (list_remove_ok _ _ _ _ pos Hrep ltac:(lia)) as (l1' & ads1 & Hadd & Hr & Hso & Hsub).
          rewrite Hadd in Hst. injection Hst as <- _.
          exists ads1, (seq_delete s pos). repeat split; auto; try apply Hr.
          intros b0 Hb0. apply eq_trans with (mem l b0); auto. apply Hso.
          * intro Hi. apply Hads in Hi. congruence.
          * congruence.
        + unfold list_remove in Hst. destruct Hrep as (A1 & A2 & A3).
          replace ((pos <? 0) || (nb_elt l <=? pos)) with true in Hst by lia.
          injection Hst as <- _. exists ads, s. repeat split; auto.
      - injection Hst as <- _. exists ads, s. auto. }
    destruct Hgoal as (ads1 & s1 & Hr1 & Hd1 & Hf1).
    eapply IHops; eauto.
Qed.
