(** * Theorems on assignment in memory (C54) *)
From Verif Require Import Base M_Owned Spec_Owned L_Owned.

Section proofs.
  Context (roots : list nat) (mr : heap -> nat -> bool) (dfa : Z) (Hmr : counts roots mr).

  Definition ptree (t : tree) : tree :=
    match t with Tree k a d ts => match k with KRcrd => Tree KDf (Some dfa) d ts | _ => t end end.
  Definition rowish (k : kind) : bool := match k with KDf | KRcrd => true | _ => false end.

  Lemma frame_app n h l x t : value_at n h x = Some t ->
    value_at n (h ++ l) x = value_at n h x /\ reach n (h ++ l) x = reach n h x /\
    rows n (h ++ l) x = rows n h x /\ elements n (h ++ l) x = elements n h x.
  Proof.
    intros Ht. apply frame. intros z Hz. rewrite lookup_app_l; [done|]. by eapply reach_lt.
  Qed.

  Lemma shell n h y k c a t k' a' : h !! y = Some (Obj k c a) -> value_at (Datatypes.S n) h y = Some t ->
    (k' = k \/ (rowish k = true /\ rowish k' = true)) ->
    value_at (Datatypes.S n) (h ++ [Obj k' c a']) (length h) = Some (match t with Tree _ _ d ts => Tree k' a' d ts end) /\
    tail (reach (Datatypes.S n) (h ++ [Obj k' c a']) (length h)) = tail (reach (Datatypes.S n) h y) /\
    tail (rows (Datatypes.S n) (h ++ [Obj k' c a']) (length h)) = tail (rows (Datatypes.S n) h y) /\
    elements (Datatypes.S n) (h ++ [Obj k' c a']) (length h) = elements (Datatypes.S n) h y.
  Proof.
    intros Hy Ht Hk. apply value_children in Ht. destruct t as [k0 a0 d ts].
    assert (HL : (h ++ [Obj k' c a']) !! length h = Some (Obj k' c a')) by (by apply list_lookup_middle).
    destruct Ht as [(-> & E & ->)|(Hk0 & -> & c0 & E & HM)]; rewrite Hy in E.
    - injection E as -> -> ->. destruct Hk as [->|[[=] _]].
      cbn [value_at reach rows elements]. rewrite HL, Hy. done.
    - injection E as <- <- <-.
      assert (HF : forall z, In z c -> value_at n (h ++ [Obj k' c a']) z = value_at n h z /\ reach n (h ++ [Obj k' c a']) z = reach n h z /\
        rows n (h ++ [Obj k' c a']) z = rows n h z /\ elements n (h ++ [Obj k' c a']) z = elements n h z).
      { intros z Hz. destruct (mapM_in _ _ _ _ HM Hz) as (tz & Hz'). by eapply frame_app. }
      assert (Hk' : k' <> KVec) by (destruct Hk as [->|[_ H]]; [done|by intros ->]).
      split; [|split; [|split]].
      + eapply value_node; [done|done|]. rewrite <- HM. apply mapM_ext'. intros. by apply HF.
      + cbn [reach tail]. rewrite HL, Hy. unfold fields. cbn.
        replace (match k' with KVec => [] | _ => c end) with c by (by destruct k').
        replace (match k with KVec => [] | _ => c end) with c by (by destruct k).
        apply concat_ext. intros. by apply HF.
      + cbn [rows tail]. rewrite HL, Hy. destruct Hk as [->|[H1 H2]].
        * destruct k; try done; (apply concat_ext; intros; by apply HF).
        * destruct k, k'; try done; (apply concat_ext; intros; by apply HF).
      + cbn [elements]. rewrite HL, Hy. destruct Hk as [->|[H1 H2]].
        * destruct k; try done; (apply concat_ext; intros; by apply HF).
        * destruct k, k'; try done; (apply concat_ext; intros; by apply HF).
  Qed.

  Lemma vec_proxy_ok n h x t : value_at (Datatypes.S n) h x = Some t -> exists l y,
    vec_proxy dfa h x = Ok (h ++ l, y) /\ value_at (Datatypes.S n) (h ++ l) y = Some (ptree t) /\
    tail (reach (Datatypes.S n) (h ++ l) y) = tail (reach (Datatypes.S n) h x) /\
    tail (rows (Datatypes.S n) (h ++ l) y) = tail (rows (Datatypes.S n) h x) /\
    elements (Datatypes.S n) (h ++ l) y = elements (Datatypes.S n) h x /\
    ((y = x /\ l = [] /\ t_kind t <> KRcrd) \/ (y = length h /\ length l = 1 /\ t_kind t = KRcrd)).
  Proof.
    intros Ht. pose proof Ht as Ht0. apply value_children in Ht0. destruct t as [k a d ts].
    assert (Hx : exists c, h !! x = Some (Obj k c a)).
    { destruct Ht0 as [(_ & E & _)|(_ & _ & c & E & _)]; by eexists. }
    destruct Hx as [c Hx]. unfold vec_proxy, rd. rewrite Hx. cbn [bind o_kind].
    destruct k; try (exists [], x; rewrite app_nil_r; cbn; repeat split; try done; by left).
    destruct (shell n h x KRcrd c a _ KDf (Some dfa) Hx Ht) as (H1 & H2 & H3 & H4); [by right|].
    exists [Obj KDf c (Some dfa)], (length h). repeat split; try done. by right.
  Qed.

  Lemma referred_app h l x : referred h x -> referred (h ++ l) x.
  Proof. intros (y & o & Hy & Hx). exists y, o. split; [by apply lookup_app_l_Some|done]. Qed.
  Lemma in_use_app h l x : in_use roots h x -> in_use roots (h ++ l) x.
  Proof. intros [H|H]; [by left|right; by apply referred_app]. Qed.

  Lemma clone_ok h p o b (w : bool) : h !! p = Some o -> (b = false -> w = false -> in_use roots h p) -> exists h2 out,
    vec_clone_referenced mr h p b = Ok (h2, out) /\
    ((h2 = h /\ out = p /\ (b = true \/ (b = false /\ w = true))) \/ (h2 = h ++ [o] /\ out = length h /\ b = false)).
  Proof.
    intros Hp Hu. unfold vec_clone_referenced, r_clone_referenced, r_clone, rd. destruct b.
    - exists h, p. split; [done|]. left. repeat split. by left.
    - destruct (mr h p) eqn:E.
      + rewrite Hp. cbn. eexists _, _. split; [done|]. by right.
      + exists h, p. split; [done|]. left. repeat split. right. destruct w; [done|].
        exfalso. specialize (Hu eq_refl eq_refl). apply Hmr in Hu. congruence.
  Qed.

  Lemma restore_ok n h y to oto b ty : h !! to = Some oto -> value_at (Datatypes.S n) h y = Some ty ->
    match ty with Tree k a d ts =>
      match o_kind oto with KRcrd => k = KDf /\ d = [] | kt => k = kt /\ a = o_attr oto end
    end -> exists h' y',
    vec_restore mr h y to b = Ok (h', y') /\ length h <= length h' /\ (forall z, z < length h -> h' !! z = h !! z) /\
    value_at (Datatypes.S n) h' y' =
      Some (match o_kind oto with KRcrd => match ty with Tree _ _ d ts => Tree KRcrd (o_attr oto) d ts end | _ => ty end) /\
    (forall z, In z (reach (Datatypes.S n) h' y') -> In z (reach (Datatypes.S n) h y) \/ length h <= z).
  Proof.
    intros Hto Hy Hk. destruct ty as [k a d ts].
    assert (Hx : exists c, h !! y = Some (Obj k c a)).
    { pose proof Hy as Ht0. apply value_children in Ht0. destruct Ht0 as [(_ & E & _)|(_ & _ & c & E & _)]; by eexists. }
    destruct Hx as [c Hx].
    assert (HK : forall k' a', (k' = k \/ (rowish k = true /\ rowish k' = true)) -> exists h' y',
      Ok (h ++ [Obj k' c a'], length h) = Ok (h', y') /\ length h <= length h' /\ (forall z, z < length h -> h' !! z = h !! z) /\
      value_at (Datatypes.S n) h' y' = Some (Tree k' a' d ts) /\
      (forall z, In z (reach (Datatypes.S n) h' y') -> In z (reach (Datatypes.S n) h y) \/ length h <= z)).
    { intros k' a' Hk'. destruct (shell n h y k c a _ k' a' Hx Hy Hk') as (H1 & H2 & _). eexists _, _. split; [done|].
      rewrite app_length. split; [lia|]. split; [intros; by apply lookup_app_l|]. split; [done|].
      intros z Hz. cbn [reach] in Hz. destruct Hz as [<-|Hz]; [right; lia|]. left. right.
      change (In z (tail (reach (Datatypes.S n) h y))). rewrite <- H2. done. }
    assert (HD : k = o_kind oto -> a = o_attr oto -> exists h' y',
      vec_restore_default mr h y to b = Ok (h', y') /\ length h <= length h' /\ (forall z, z < length h -> h' !! z = h !! z) /\
      value_at (Datatypes.S n) h' y' = Some (Tree k a d ts) /\
      (forall z, In z (reach (Datatypes.S n) h' y') -> In z (reach (Datatypes.S n) h y) \/ length h <= z)).
    { intros -> Ea. unfold vec_restore_default. unfold rd at 1. rewrite Hto. cbn [bind].
      destruct (o_attr oto) as [a0|]; [|exists h, y; repeat split; auto].
      assert (HC : vec_clone_referenced mr h y b = Ok (h, y) \/ vec_clone_referenced mr h y b = Ok (h ++ [Obj (o_kind oto) c a], length h)).
      { unfold vec_clone_referenced, r_clone_referenced, r_clone, rd. rewrite Hx. destruct b; [by left|]. destruct (mr h y); [by right|by left]. }
      destruct HC as [->| ->]; cbn [bind]; unfold rd.
      - rewrite Hx. cbn [bind o_kind o_cells]. rewrite wr_Ok by (by eapply lookup_lt_Some). cbn [bind].
        rewrite <- Ea in *. subst a. exists h, y. rewrite list_insert_id by done. repeat split; auto.
      - rewrite list_lookup_middle by done. cbn [bind o_kind o_cells]. rewrite wr_Ok by (rewrite app_length; cbn; lia). cbn [bind].
        rewrite <- Ea in *. rewrite list_insert_id by (by rewrite list_lookup_middle). apply HK. by left. }
    unfold vec_restore. unfold rd. rewrite Hto. cbn [bind]. rewrite Hx. cbn [bind o_kind o_cells].
    destruct (o_kind oto) eqn:Eo.
    - destruct Hk as [-> ->]. by apply HD.
    - destruct Hk as [-> ->]. by apply HD.
    - destruct Hk as [-> ->]. cbn. by apply HD.
    - destruct Hk as [-> ->]. apply HK. by right.
  Qed.

  Definition W (b w : bool) (n : nat) (h : heap) (p z : nat) : Prop := if b then In z (rows n h p) else w = true /\ z = p.
  Definition post (b w : bool) (n : nat) (h : heap) (p v : nat) (t : tree) (h' : heap) (y : nat) : Prop :=
    value_at n h' y = Some t /\ length h <= length h' /\
    (forall z, z < length h -> ~ W b w n h p z -> h' !! z = h !! z) /\
    (forall o, h !! p = Some o -> exists c, h' !! p = Some (Obj (o_kind o) c (o_attr o))) /\
    (forall z, In z (reach n h' y) -> length h <= z \/ W b w n h p z \/ In z (elements n h p) \/ In z (reach n h v)).

  Section main.
    Context (idx : list (option nat)).

    Definition pre (b w : bool) (n : nat) (h : heap) (p v : nat) (tx tv : tree) : Prop :=
      value_at n h p = Some tx /\ value_at n h v = Some tv /\ t_kind tx <> KRcrd /\ fits idx tx (ptree tv) /\
      (b = true -> List.NoDup (rows n h p)) /\
      (b = false -> w = false -> in_use roots h p) /\
      (b = false -> w = true -> ~ In p (tail (reach n h p))) /\
      (forall z, W b w n h p z -> ~ In z (elements n h p) /\ ~ In z (reach n h v)).

    (** What the target is: [p] itself or a copy *)
    Lemma target_ok b w n h p v tx tv l o : pre b w (Datatypes.S n) h p v tx tv -> h !! p = Some o ->
      exists h2 out, vec_clone_referenced mr (h ++ l) p b = Ok (h2, out) /\
      length (h ++ l) <= length h2 /\ (forall z, z < length (h ++ l) -> h2 !! z = (h ++ l) !! z) /\
      h2 !! out = Some o /\ (length (h ++ l) <= out \/ (out = p /\ W b w (Datatypes.S n) h p p)) /\
      ~ In out (tail (reach (Datatypes.S n) h p)) /\ ~ In out (reach (Datatypes.S n) h v).
    Proof.
      intros (Hp & Hv & _ & _ & Hnd & Hu & Hc & HW) Ho.
      destruct (clone_ok (h ++ l) p o b w) as (h2 & out & E & D).
      { by apply lookup_app_l_Some. }
      { intros. apply in_use_app. auto. }
      exists h2, out. split; [done|]. destruct D as [(-> & -> & D)|(-> & -> & D)].
      - assert (HWp : W b w (Datatypes.S n) h p p) by (destruct D as [->|[-> ->]]; [by left|by split]).
        split; [done|]. split; [done|]. split; [by apply lookup_app_l_Some|]. split; [by right|]. destruct (HW p HWp) as [H1 H2].
        split; [|done]. intros Hr. destruct D as [->|[-> ->]]; [|by apply Hc].
        specialize (Hnd eq_refl). cbn [reach rows elements tail] in Hr, Hnd, H1. rewrite Ho in Hr, Hnd, H1. destruct o as [k c a].
        unfold fields in Hr. apply NoDup_cons_iff in Hnd as [Hnd _].
        destruct k; cbn in Hr; try done;
          apply in_concat_map in Hr as (z & Hz & Hr); apply reach_split in Hr as [Hr|Hr];
          (apply Hnd + apply H1); apply in_concat_map; by exists z.
      - rewrite (app_length (h ++ l)). cbn. split; [lia|]. split; [intros; by apply lookup_app_l|].
        split; [by apply list_lookup_middle|]. split; [by left|].
        split; intros Hr.
        + assert (length (h ++ l) < length h); [|rewrite app_length in *; lia].
          eapply reach_lt; [exact Hp|]. cbn [reach]. by right.
        + assert (length (h ++ l) < length h); [|rewrite app_length in *; lia]. by eapply reach_lt.
    Qed.

    (** Vectors and lists *)
    Lemma leaf_ok b w n h p v tx tv : pre b w (Datatypes.S n) h p v tx tv -> rowish (t_kind tx) = false ->
      exists h' y, assign_index mr h p idx v b = Ok (h', y) /\ post b w (Datatypes.S n) h p v (put_rows idx tx (ptree tv)) h' y.
    Proof.
      intros Hpre Hk. pose proof Hpre as (Hp & Hv & Hk' & Hf & Hnd & Hu & Hc & HW).
      destruct tx as [k a d ts]. destruct tv as [kv av dv tsv]. cbn in Hk, Hk'.
      assert (Hkv : kv = k) by (destruct k, kv; try done; by destruct Hf).
      subst kv. assert (HP : ptree (Tree k av dv tsv) = Tree k av dv tsv) by (by destruct k).
      rewrite HP in *. clear HP.
      pose proof (value_children _ _ _ _ Hp) as Cp. pose proof (value_children _ _ _ _ Hv) as Cv. cbn in Cp, Cv.
      assert (Hop : exists cp cv, h !! p = Some (Obj k cp a) /\ h !! v = Some (Obj k cv av) /\ length cv = length idx /\
        (forall i, In (Some i) idx -> i < length cp)).
      { cbn in Hf. destruct Hf as [_ Hf]. destruct Cp as [(-> & E & ->)|(Hn & -> & cp & E & HM)].
        - destruct Cv as [(_ & E' & ->)|(? & _)]; [|done]. exists d, dv. destruct Hf. done.
        - destruct Cv as [(? & _)|(_ & -> & cv & E' & HM')]; [done|]. exists cp, cv. split; [done|]. split; [done|].
          apply mapM_length in HM. apply mapM_length in HM'. destruct k; try done. destruct Hf as [H1 H2].
          split; [congruence|]. intros. rewrite HM. by apply H2. }
      destruct Hop as (cp & cv & Ep & Ev & Hl & Hb).
      destruct (target_ok b w n h p v _ _ [] _ Hpre Ep) as (h2 & out & EC & HL & HK & Eo & Hout & Hr1 & Hr2).
      rewrite app_nil_r in *.
      assert (Hvo : v <> out) by (intros <-; apply Hr2, reach_head).
      assert (Ev2 : h2 !! v = Some (Obj k cv av)) by (rewrite HK; [done|by eapply lookup_lt_Some]).
      unfold assign_index. unfold rd. rewrite Ev. cbn [bind o_cells]. rewrite Hl, Nat.eqb_refl. cbn [negb].
      rewrite EC. cbn [bind]. rewrite (assign_loop idx v out _ _ h2 Hvo Ev2 Eo Hl Hb). cbn [bind o_kind o_cells o_attr].
      eexists _, _. split; [done|]. set (h3 := <[out:=_]> h2).
      assert (Hlt : out < length h2) by (by eapply lookup_lt_Some).
      assert (E3 : h3 !! out = Some (Obj k (put idx cv cp) a)) by (by apply list_lookup_insert).
      assert (HFr : forall x t, value_at n h x = Some t -> ~ In out (reach n h x) -> value_at n h3 x = value_at n h x /\ reach n h3 x = reach n h x).
      { intros x t Hx Ho. destruct (frame n h h3 x) as (H1 & H2 & _); [|done]. intros z Hz.
        assert (z <> out) by (by intros ->). unfold h3. rewrite list_lookup_insert_ne by done. apply HK. by eapply reach_lt. }
      unfold post. split; [|split; [|split; [|split]]].
      - destruct Cp as [(-> & E & ->)|(Hn & -> & cp' & E & HM)].
        + rewrite Ep in E. injection E as ->. destruct Cv as [(_ & E' & ->)|(? & _)]; [|done].
          rewrite Ev in E'. injection E' as ->. cbn [value_at]. by rewrite E3.
        + destruct Cv as [(? & _)|(_ & -> & cv' & E' & HM')]; [done|]. rewrite Ep in E. injection E as <-.
          rewrite Ev in E'. injection E' as <-. destruct k; try done. cbn [put_rows].
          eapply value_node; [done|done|]. apply mapM_put.
          * rewrite <- HM'. apply mapM_ext'. intros z Hz. destruct (mapM_in _ _ _ _ HM' Hz) as (t & Ht).
            apply (HFr z t Ht). intros Hi. apply Hr2. cbn [reach]. right. rewrite Ev. unfold fields. cbn.
            apply in_concat_map. by exists z.
          * rewrite <- HM. apply mapM_ext'. intros z Hz. destruct (mapM_in _ _ _ _ HM Hz) as (t & Ht).
            apply (HFr z t Ht). intros Hi. apply Hr1. cbn [reach tail]. rewrite Ep. unfold fields. cbn.
            apply in_concat_map. by exists z.
      - unfold h3. by rewrite insert_length.
      - intros z Hz Hw. unfold h3. rewrite list_lookup_insert_ne; [by apply HK|]. intros <-.
        destruct Hout as [?|[-> ?]]; [lia|done].
      - intros o Ho. destruct (decide (p = out)) as [->|Hne].
        + rewrite E3. rewrite Ho in Ep. injection Ep as ->. by eexists.
        + unfold h3. rewrite list_lookup_insert_ne by done. rewrite HK by (by eapply lookup_lt_Some). destruct o. by eexists.
      - intros z Hz. cbn [reach] in Hz. rewrite E3 in Hz. destruct Hz as [<-|Hz].
        { destruct Hout as [?|[-> ?]]; [by left|right; by left]. }
        unfold fields in Hz. cbn in Hz.
        destruct Cp as [(-> & _)|(Hn & -> & cp' & E & HM)]; [done|].
        destruct Cv as [(? & _)|(_ & -> & cv' & E' & HM')]; [done|]. rewrite Ep in E. injection E as <-.
        rewrite Ev in E'. injection E' as <-. destruct k; try done.
        apply in_concat_map in Hz as (y & Hy & Hz). right. right. apply in_put in Hy as [Hy|Hy].
        + right. destruct (mapM_in _ _ _ _ HM' Hy) as (t & Ht). cbn [reach]. right. rewrite Ev. unfold fields. cbn.
          apply in_concat_map. exists y. split; [done|]. destruct (HFr y t Ht) as [_ <-]; [|done].
          intros Hi. apply Hr2. cbn [reach]. right. rewrite Ev. unfold fields. cbn. apply in_concat_map. by exists y.
        + left. destruct (mapM_in _ _ _ _ HM Hy) as (t & Ht). cbn [elements]. rewrite Ep.
          apply in_concat_map. exists y. split; [done|]. destruct (HFr y t Ht) as [_ <-]; [|done].
          intros Hi. apply Hr1. cbn [reach tail]. rewrite Ep. unfold fields. cbn. apply in_concat_map. by exists y.
    Qed.

    (** One column *)
    Definition column (rec : heap -> nat -> nat -> res (heap * nat)) (b : bool) (h : heap) (c v : nat) : res (heap * nat) :=
      let! (h, proxy_elt) := vec_proxy dfa h c in
      let! (h, assigned) := rec h proxy_elt v in
      vec_restore mr h assigned c b.
    Definition good (rec : heap -> nat -> nat -> res (heap * nat)) (b : bool) (n : nat) : Prop :=
      forall w h p v tx tv, pre b w n h p v tx tv ->
      exists h' y, rec h p v = Ok (h', y) /\ post b w n h p v (put_rows idx tx (ptree tv)) h' y.

    Lemma column_ok rec b n h c v tc tv : good rec b n -> value_at n h c = Some tc -> value_at n h v = Some tv -> fits idx tc tv ->
      referred h c -> (b = true -> List.NoDup (rows n h c)) ->
      (b = true -> forall z, In z (rows n h c) -> ~ In z (elements n h c) /\ ~ In z (reach n h v)) ->
      exists h' y, column rec b h c v = Ok (h', y) /\ value_at n h' y = Some (put_rows idx tc tv) /\ length h <= length h' /\
        (forall z, z < length h -> ~ (b = true /\ In z (rows n h c)) -> h' !! z = h !! z) /\
        (forall z, In z (reach n h' y) -> length h <= z \/ (b = true /\ In z (rows n h c)) \/ In z (elements n h c) \/ In z (reach n h v)).
    Proof.
      intros Hrec Hc Hv Hf Hu Hnd HW. destruct n as [|n]; [done|].
      destruct (vec_proxy_ok n h c tc Hc) as (l & pe & EP & Hpe & Ht & Htr & Hel & D).
      destruct (frame_app _ h l v _ Hv) as (Fv & Frv & _).
      assert (Hrows : forall z, In z (rows (Datatypes.S n) (h ++ l) pe) -> In z (rows (Datatypes.S n) h c) \/ z = length h).
      { intros z Hz. destruct D as [(-> & -> & _)|(-> & _)]; [rewrite app_nil_r in Hz; by left|].
        cbn [rows] in Hz. destruct Hz as [<-|Hz]; [by right|]. left. right.
        change (In z (tail (rows (Datatypes.S n) h c))). by rewrite <- Htr. }
      set (w := match t_kind tc with KRcrd => true | _ => false end).
      destruct (Hrec w (h ++ l) pe v (ptree tc) tv) as (h1 & y1 & E1 & HP).
      { unfold pre. split; [done|]. split; [by rewrite Fv|]. split; [by destruct tc as [[] ? ? ?]|].
        split. { destruct tc as [[] ? ? ?], tv as [[] ? ? ?]; cbn in Hf |- *; destruct Hf; try done. }
        split.
        { intros Eb. specialize (Hnd Eb). destruct D as [(-> & -> & _)|(-> & _)]; [by rewrite app_nil_r|].
          cbn [rows] in Hnd, Htr |- *. apply NoDup_cons_iff in Hnd as [Hn1 Hn2]. cbn [tail] in Htr.
          rewrite Htr. constructor; [|done]. intros Hi.
          assert (length h < length h); [|lia]. eapply reach_lt; [exact Hc|]. apply rows_reach. cbn [rows]. by right. }
        split.
        { intros _ Hw. destruct D as [(-> & -> & _)|(_ & _ & Hk)]; [rewrite app_nil_r; by right|].
          unfold w in Hw. by rewrite Hk in Hw. }
        split.
        { intros _ Hw Hi. rewrite Ht in Hi. destruct D as [(-> & -> & Hk)|(-> & _)].
          - unfold w in Hw. by destruct (t_kind tc).
          - assert (length h < length h); [|lia]. eapply reach_lt; [exact Hc|]. cbn [reach]. by right. }
        intros z Hz. rewrite Hel, Frv. unfold W in Hz. destruct b.
        - destruct (Hrows z Hz) as [Hz'|Hz']; [by apply HW|]. subst z.
          split; intros Hi; (assert (length h < length h); [|lia]); [eapply reach_lt; [exact Hc|by apply elements_reach]|by eapply reach_lt].
        - destruct Hz as [Hw ->]. destruct D as [(_ & _ & Hk)|(-> & _)].
          + unfold w in Hw. by destruct (t_kind tc).
          + split; intros Hi; (assert (length h < length h); [|lia]); [eapply reach_lt; [exact Hc|by apply elements_reach]|by eapply reach_lt]. }
      destruct HP as (Hy1 & HL1 & HK1 & HA1 & HR1).
      assert (HWc : forall z, z < length h -> ~ (b = true /\ In z (rows (Datatypes.S n) h c)) -> h1 !! z = h !! z).
      { intros z Hz Hn. rewrite HK1; [by apply lookup_app_l|rewrite app_length; lia|]. intros HWz. unfold W in HWz. destruct b.
        - destruct (Hrows z HWz) as [?| ->]; [by apply Hn|lia].
        - destruct HWz as [Hw ->]. destruct D as [(_ & _ & Hk)|(-> & _)]; [|lia]. unfold w in Hw. by destruct (t_kind tc). }
      assert (Hlc : c < length h) by (eapply reach_lt; [exact Hc|apply reach_head]).
      destruct tc as [k a d ts].
      assert (Hoc : exists cs, h !! c = Some (Obj k cs a)).
      { pose proof (value_children _ _ _ _ Hc) as Ht0. destruct Ht0 as [(_ & E & _)|(_ & _ & cs & E & _)]; by eexists. }
      destruct Hoc as [cs Hoc].
      assert (Hto : exists cs', h1 !! c = Some (Obj k cs' a)).
      { destruct D as [(-> & -> & Hk)|(-> & _ & Hk)].
        - rewrite app_nil_r in HA1. destruct (HA1 _ Hoc) as [cs' E]. by exists cs'.
        - exists cs. rewrite HK1; [by apply lookup_app_l_Some|rewrite app_length; lia|]. intros HWz. unfold W in HWz. destruct b; [|by destruct HWz; lia].
          specialize (Hnd eq_refl). cbn [rows] in HWz, Hnd. destruct HWz as [?|HWz]; [lia|].
          apply NoDup_cons_iff in Hnd as [Hn1 _]. apply Hn1. cbn [rows tail] in Htr. by rewrite <- Htr. }
      destruct Hto as [cs' Hto].
      destruct (restore_ok n h1 y1 c _ b _ Hto Hy1) as (h2 & y2 & E2 & HL2 & HK2 & Hy2 & HR2).
      { cbn. destruct tv as [kv av dv tsv]. cbn in Hf. destruct Hf as [<- _]. destruct k; cbn; done. }
      exists h2, y2. unfold column. rewrite EP. cbn [bind]. rewrite E1. cbn [bind]. split; [done|]. split.
      { rewrite Hy2. f_equal. destruct tv as [kv av dv tsv]. cbn in Hf. destruct Hf as [<- _]. by destruct k. }
      rewrite app_length in HL1. split; [lia|]. split.
      { intros z Hz Hn. rewrite HK2 by lia. by apply HWc. }
      intros z Hz. destruct (HR2 z Hz) as [Hz'|?]; [|left; lia].
      destruct (HR1 z Hz') as [?|[HWz|[Hz2|Hz2]]].
      - rewrite app_length in *. left. lia.
      - unfold W in HWz. destruct b.
        + destruct (Hrows z HWz) as [?| ->]; [right; left; done|left; lia].
        + destruct HWz as [Hw ->]. destruct D as [(_ & _ & Hk)|(-> & _)]; [|left; lia]. unfold w in Hw. by destruct k.
      - rewrite Hel in Hz2. right. right. by left.
      - rewrite Frv in Hz2. right. right. by right.
    Qed.

    Lemma step_column rec b out value i h o ov c v h' y :
      h !! out = Some o -> o_cells o !! i = Some c -> h !! value = Some ov -> o_cells ov !! i = Some v ->
      column rec b h c v = Ok (h', y) -> h' !! out = Some o ->
      df_step mr dfa rec b out value i h = Ok (<[out := Obj (o_kind o) (<[i := y]> (o_cells o)) (o_attr o)]> h').
    Proof.
      intros Ho Hc Hov Hv EC Ho'. unfold df_step, rd. rewrite Ho. cbn [bind]. rewrite Hc. cbn [bind]. rewrite Hov. cbn [bind].
      rewrite Hv. cbn [bind]. unfold column in EC. destruct (vec_proxy dfa h c) as [[h1 pe]| |]; try done. cbn [bind] in EC |- *.
      destruct (rec h1 pe v) as [[h2 as2]| |]; try done. cbn [bind] in EC |- *. rewrite EC. cbn [bind]. rewrite Ho'. cbn [bind].
      rewrite wr_Ok by (by eapply lookup_lt_Some). cbn [bind]. rewrite wr_Ok by (by eapply lookup_lt_Some). done.
    Qed.

    Lemma df_ok rec b w n h l p v vp tx tv cv kv av av' : good rec b n -> pre b w (Datatypes.S n) h p v tx tv -> t_kind tx = KDf ->
      h !! v = Some (Obj kv cv av) -> (h ++ l) !! vp = Some (Obj KDf cv av') -> (vp = v \/ vp = length h) ->
      exists h' y, df_assign mr dfa rec (h ++ l) p vp b = Ok (h', y) /\ post b w (Datatypes.S n) h p v (put_rows idx tx (ptree tv)) h' y.
    Proof.
      intros Hrec Hpre Hk Ev Evp Dvp. pose proof Hpre as (Hp & Hv & _ & Hf & Hnd & Hu & Hc & HW).
      destruct tx as [k a d ts]. cbn in Hk. subst k. destruct tv as [kv0 av0 dv tsv].
      pose proof (value_children _ _ _ _ Hp) as [(? & _)|(_ & -> & cs & Ep & HM)]; [done|].
      pose proof (value_children _ _ _ _ Hv) as Cv.
      assert (HMv : kv <> KVec /\ mapM (value_at n h) cv = Some tsv /\ length ts = length tsv /\ foldr and True (zip_with (fits idx) ts tsv)).
      { destruct Cv as [(-> & E & ->)|(Hn & -> & c' & E & HMv)]; rewrite Ev in E.
        - cbn in Hf. by destruct Hf.
        - injection E as -> -> ->. split; [done|]. split; [done|]. destruct kv0; cbn in Hf; by destruct Hf as [? [? ?]]. }
      destruct HMv as (Hkv & HMv & Hlt & Hff). clear Cv.
      pose proof (mapM_length _ _ _ HM) as Hl1. pose proof (mapM_length _ _ _ HMv) as Hl2.
      assert (HPR : put_rows idx (Tree KDf a [] ts) (ptree (Tree kv0 av0 dv tsv)) = Tree KDf a [] (zip_with (put_rows idx) ts tsv))
        by (by destruct kv0).
      rewrite HPR. clear HPR Hf.
      rewrite mapM_Some in HM. rewrite mapM_Some in HMv.
      (* children *)
      assert (Crows : forall k c z, cs !! k = Some c -> In z (rows n h c) -> In z (rows (Datatypes.S n) h p)).
      { intros k c z Hkc Hz. cbn [rows]. right. rewrite Ep. apply in_concat_map. exists c. split; [|done].
        apply elem_of_list_In, elem_of_list_lookup. by exists k. }
      assert (Celts : forall k c z, cs !! k = Some c -> In z (elements n h c) -> In z (elements (Datatypes.S n) h p)).
      { intros k c z Hkc Hz. cbn [elements]. rewrite Ep. apply in_concat_map. exists c. split; [|done].
        apply elem_of_list_In, elem_of_list_lookup. by exists k. }
      assert (Creach : forall k c z, cs !! k = Some c -> In z (reach n h c) -> In z (tail (reach (Datatypes.S n) h p))).
      { intros k c z Hkc Hz. cbn [reach tail]. rewrite Ep. unfold fields. cbn. apply in_concat_map. exists c. split; [|done].
        apply elem_of_list_In, elem_of_list_lookup. by exists k. }
      assert (Cv : forall k c z, cv !! k = Some c -> In z (reach n h c) -> In z (reach (Datatypes.S n) h v)).
      { intros k c z Hkc Hz. cbn [reach]. right. rewrite Ev. unfold fields. cbn. apply in_concat_map. exists c. split; [|done].
        destruct kv; [done|..]; (apply elem_of_list_In, elem_of_list_lookup; by exists k). }
      assert (Hnd' : b = true -> (forall i c, cs !! i = Some c -> List.NoDup (rows n h c)) /\
        (forall i j c c' z, cs !! i = Some c -> cs !! j = Some c' -> i <> j -> In z (rows n h c) -> In z (rows n h c') -> False)).
      { intros Eb. specialize (Hnd Eb). cbn [rows] in Hnd. rewrite Ep in Hnd. apply NoDup_cons_iff in Hnd as [_ Hnd].
        by apply NoDup_concat_map. }
      assert (HWb : b = true -> forall z, In z (rows (Datatypes.S n) h p) -> ~ In z (elements (Datatypes.S n) h p) /\ ~ In z (reach (Datatypes.S n) h v)).
      { intros ->. apply HW. }
      assert (Hlv : v < length h) by (by eapply lookup_lt_Some).
      destruct (target_ok b w n h p v _ _ l _ Hpre Ep) as (h2 & out & EC & HL & HK & Eo & Hout & Hr1 & Hr2).
      assert (Hlt2 : length h <= length h2) by (rewrite app_length in HL; lia).
      assert (HK2 : forall z, z < length h -> h2 !! z = h !! z).
      { intros z Hz. rewrite HK by (rewrite app_length; lia). by apply lookup_app_l. }
      assert (Hvp : vp <> out /\ vp < length h2 /\ (b = true -> ~ In vp (rows (Datatypes.S n) h p))).
      { assert (Hl' : vp < length (h ++ l)) by (by eapply lookup_lt_Some). assert (Hlp : p < length h) by (by eapply lookup_lt_Some).
        split; [|split; [lia|]].
        - intros ->. destruct Hout as [?|[-> _]]; [lia|]. destruct Dvp as [->| ->]; [|lia]. apply Hr2, reach_head.
        - intros Eb Hi. destruct Dvp as [->| ->]; [destruct (HWb Eb _ Hi) as [_ H]; apply H, reach_head|].
          assert (length h < length h); [|lia]. eapply reach_lt; [exact Hp|]. by apply rows_reach. }
      destruct Hvp as (Hvp1 & Hvp2 & Hvp3).
      assert (Evp2 : h2 !! vp = Some (Obj KDf cv av')).
      { rewrite HK; [done|]. by eapply lookup_lt_Some. }
      assert (Hlo : out < length h2) by (by eapply lookup_lt_Some).
      set (Inv := fun (i : nat) (hi : heap) =>
        length h2 <= length hi /\
        (forall z, z < length h2 -> z <> out -> (b = true -> forall k c, k < i -> cs !! k = Some c -> ~ In z (rows n h c)) -> hi !! z = h2 !! z) /\
        exists ys, hi !! out = Some (Obj KDf (ys ++ drop i cs) a) /\ length ys = i /\
          forall k y c vk t tv, ys !! k = Some y -> cs !! k = Some c -> cv !! k = Some vk -> ts !! k = Some t -> tsv !! k = Some tv ->
            value_at n hi y = Some (put_rows idx t tv) /\
            forall z, In z (reach n hi y) -> z <> out /\
              (length h2 <= z \/ (b = true /\ In z (rows n h c)) \/ In z (elements n h c) \/ In z (reach n h vk))).
      destruct (for_inv Inv 0 (length cs) (df_step mr dfa rec b out vp) h2) as (h3 & EF & HI).
      { unfold Inv. split; [done|]. split; [done|]. exists []. rewrite drop_0. by split. }
      { intros i hi Hi (J1 & J2 & ys & J3 & J4 & J5).
        destruct (lookup_lt_is_Some_2 cs i) as [c Ec]; [lia|].
        destruct (Forall2_lookup_l _ _ _ _ _ HM Ec) as (t & Et & Ht).
        destruct (lookup_lt_is_Some_2 cv i) as [vk Evk]; [lia|].
        destruct (Forall2_lookup_l _ _ _ _ _ HMv Evk) as (tv & Etv & Htv).
        assert (Fc : value_at n hi c = value_at n h c /\ reach n hi c = reach n h c /\ rows n hi c = rows n h c /\ elements n hi c = elements n h c).
        { apply frame. intros z Hz. assert (z < length h) by (exact (reach_lt _ _ _ _ Ht _ Hz)). rewrite J2; [by apply HK2|lia| |].
          - intros ->. by apply Hr1, (Creach i c).
          - intros Eb k c' Hki Hkc Hzk. destruct (reach_split _ _ _ _ Hz) as [Hz'|Hz'].
            + destruct (Hnd' Eb) as [_ Hd]. apply (Hd i k c c' z); try done. lia.
            + destruct (HWb Eb z) as [H1 _]; [by apply (Crows k c')|]. apply H1. by apply (Celts i c). }
        assert (Fv : value_at n hi vk = value_at n h vk /\ reach n hi vk = reach n h vk /\ rows n hi vk = rows n h vk /\ elements n hi vk = elements n h vk).
        { apply frame. intros z Hz. assert (z < length h) by (exact (reach_lt _ _ _ _ Htv _ Hz)). rewrite J2; [by apply HK2|lia| |].
          - intros ->. by apply Hr2, (Cv i vk).
          - intros Eb k c' Hki Hkc Hzk. destruct (HWb Eb z) as [_ H1]; [by apply (Crows k c')|]. apply H1. by apply (Cv i vk). }
        destruct Fc as (F1 & F2 & F3 & F4). destruct Fv as (G1 & G2 & _).
        assert (Eci : (ys ++ drop i cs) !! i = Some c).
        { rewrite lookup_app_r by lia. rewrite lookup_drop. replace (i + (i - length ys)) with i by lia. done. }
        destruct (column_ok rec b n hi c vk t tv) as (h' & y & EY & HY & HLY & HKY & HRY); try done.
        { by rewrite F1. }
        { by rewrite G1. }
        { eapply fits_nth; [exact Hlt|done|done|done]. }
        { exists out, (Obj KDf (ys ++ drop i cs) a). split; [done|]. unfold fields. cbn.
          apply elem_of_list_In, elem_of_list_lookup. by exists i. }
        { intros Eb. rewrite F3. destruct (Hnd' Eb) as [H1 _]. by apply (H1 i). }
        { intros Eb z Hz. rewrite F3 in Hz. rewrite F4, G2. destruct (HWb Eb z) as [H1 H2]; [by apply (Crows i c)|].
          split; intros H; [by apply H1, (Celts i c)|by apply H2, (Cv i vk)]. }
        rewrite F3, F4, G2 in *.
        assert (Hno : ~ (b = true /\ In out (rows n h c))).
        { intros [_ H]. apply Hr1, (Creach i c); [done|]. by apply rows_reach. }
        assert (Eo' : h' !! out = Some (Obj KDf (ys ++ drop i cs) a)) by (rewrite HKY; [done|lia|done]).
        assert (Evi : hi !! vp = Some (Obj KDf cv av')).
        { rewrite J2; [done|done|done|]. intros Eb k c' _ Hkc Hz. by apply (Hvp3 Eb), (Crows k c'). }
        rewrite (step_column rec b out vp i hi _ _ c vk h' y J3 Eci Evi Evk EY Eo'). eexists. split; [done|].
        cbn [o_kind o_cells o_attr].
        assert (Ecs : <[i := y]> (ys ++ drop i cs) = (ys ++ [y]) ++ drop (Datatypes.S i) cs).
        { rewrite insert_app_r_alt by lia. rewrite J4, Nat.sub_diag, (drop_S _ _ _ Ec). cbn. by rewrite <- app_assoc. }
        rewrite Ecs. set (h4 := <[out:=_]> h').
        assert (E4 : forall z, z <> out -> h4 !! z = h' !! z) by (intros; unfold h4; by rewrite list_lookup_insert_ne).
        unfold Inv. split; [unfold h4; rewrite insert_length; lia|]. split.
        { intros z Hz Hzo Hb. rewrite E4 by done. rewrite HKY; [|lia|intros [Eb Hi']; by eapply (Hb Eb i c); [lia| |]].
          apply J2; [done|done|]. intros Eb k c' Hki. apply Hb; [done|lia]. }
        exists (ys ++ [y]). split; [unfold h4; rewrite list_lookup_insert; [done|lia]|].
        split; [rewrite app_length; cbn; lia|].
        intros k y' c' vk' t' tv' Hy' Hc' Hvk' Ht' Htv'.
        destruct (decide (k = i)) as [->|Hki].
        - rewrite lookup_app_r in Hy' by lia. rewrite J4, Nat.sub_diag in Hy'. injection Hy' as <-.
          rewrite Ec in Hc'. injection Hc' as <-. rewrite Evk in Hvk'. injection Hvk' as <-.
          rewrite Et in Ht'. injection Ht' as <-. rewrite Etv in Htv'. injection Htv' as <-.
          assert (HO : forall z, In z (reach n h' y) -> z <> out).
          { intros z Hz ->. destruct (HRY out Hz) as [?|[?|[?|?]]]; [lia|done| |].
            - apply Hr1, (Creach i c); [done|]. by apply elements_reach.
            - by apply Hr2, (Cv i vk). }
          destruct (frame n h' h4 y) as (K1 & K2 & _). { intros z Hz. apply E4, HO, Hz. }
          rewrite K1, K2. split; [done|]. intros z Hz. split; [by apply HO|].
          destruct (HRY z Hz) as [?|[?|[?|?]]]; [left; lia|right; by left|right; right; by left|right; right; by right].
        - assert (Hkl : k < i). { apply lookup_lt_Some in Hy'. rewrite app_length in Hy'. cbn in Hy'. lia. }
          rewrite lookup_app_l in Hy' by lia.
          destruct (J5 k y' c' vk' t' tv' Hy' Hc' Hvk' Ht' Htv') as [V R].
          destruct (frame n hi h4 y') as (K1 & K2 & _).
          { intros z Hz. destruct (R z Hz) as [Hzo Hz']. rewrite E4 by done. apply HKY; [by eapply reach_lt|].
            intros [Eb Hzr]. destruct Hz' as [?|[[_ ?]|[?|?]]].
            - assert (z < length h); [|lia]. eapply reach_lt; [exact Ht|]. by apply rows_reach.
            - destruct (Hnd' Eb) as [_ Hd]. by apply (Hd k i c' c z).
            - destruct (HWb Eb z) as [H1 _]; [by apply (Crows i c)|]. apply H1. by apply (Celts k c').
            - destruct (HWb Eb z) as [_ H1]; [by apply (Crows i c)|]. apply H1. by apply (Cv k vk'). }
          rewrite K1, K2. by split. }
      destruct HI as (J1 & J2 & ys & J3 & J4 & J5). cbn [Nat.add] in J2, J3, J4. rewrite drop_all, app_nil_r in J3.
      unfold df_assign. rewrite EC. cbn [bind]. unfold rd. rewrite Eo. cbn [bind o_cells]. rewrite Evp2. cbn [bind o_cells].
      replace (length cv =? length cs) with true by (symmetry; apply Nat.eqb_eq; lia). cbn [negb]. rewrite EF. cbn [bind].
      eexists _, _. split; [done|]. unfold post. split; [|split; [|split; [|split]]].
      - eapply value_node; [done|exact J3|]. apply mapM_Some. apply Forall2_same_length_lookup.
        rewrite zip_with_length. split; [lia|]. intros k y t' Hy Ht'. apply lookup_zip_with_Some in Ht' as (t & tv & -> & Et & Etv).
        assert (k < length cs) by (apply lookup_lt_Some in Hy; lia).
        destruct (lookup_lt_is_Some_2 cs k) as [c Ec]; [lia|]. destruct (lookup_lt_is_Some_2 cv k) as [vk Evk]; [lia|].
        by destruct (J5 k y c vk t tv) as [V _].
      - lia.
      - intros z Hz HnW. rewrite J2; [by apply HK2|lia| |].
        + intros ->. destruct Hout as [?|[-> ?]]; [|done]. rewrite app_length in *. lia.
        + intros Eb k c _ Hkc Hz'. apply HnW. unfold W. rewrite Eb. by apply (Crows k c).
      - intros o Ho. rewrite Ep in Ho. injection Ho as <-. cbn.
        assert (Hlp : p < length h) by (by eapply lookup_lt_Some).
        destruct (decide (p = out)) as [->|Hne]; [by eexists|]. exists cs. rewrite J2; [by rewrite HK2|lia|done|].
        intros Eb k c _ Hkc Hz. specialize (Hnd Eb). cbn [rows] in Hnd. rewrite Ep in Hnd. apply NoDup_cons_iff in Hnd as [Hnd _].
        apply Hnd, in_concat_map. exists c. split; [|done]. apply elem_of_list_In, elem_of_list_lookup. by exists k.
      - intros z Hz. cbn [reach] in Hz. rewrite J3 in Hz. destruct Hz as [<-|Hz].
        { destruct Hout as [?|[-> ?]]; [|right; by left]. rewrite app_length in *. left. lia. }
        unfold fields in Hz. cbn in Hz. apply in_concat_map in Hz as (y & Hy & Hz).
        apply elem_of_list_In, elem_of_list_lookup in Hy as [k Hy].
        assert (k < length cs) by (apply lookup_lt_Some in Hy; lia).
        destruct (lookup_lt_is_Some_2 cs k) as [c Ec]; [lia|]. destruct (lookup_lt_is_Some_2 cv k) as [vk Evk]; [lia|].
        destruct (lookup_lt_is_Some_2 ts k) as [t Et]; [lia|]. destruct (lookup_lt_is_Some_2 tsv k) as [tv Etv]; [lia|].
        destruct (J5 k y c vk t tv) as [_ R]; try done. destruct (R z Hz) as [_ [?|[[Eb ?]|[?|?]]]].
        + left. lia.
        + right. left. unfold W. rewrite Eb. by apply (Crows k c).
        + right. right. left. by apply (Celts k c).
        + right. right. right. by apply (Cv k vk).
    Qed.

    Lemma vec_proxy_assign_ok b n : forall fuel, n <= fuel -> good (vec_proxy_assign mr dfa fuel idx b) b n.
    Proof.
      induction n as [|n IH]; intros fuel Hfuel w h p v tx tv Hpre; [by destruct Hpre as (? & _)|].
      destruct fuel as [|fuel]; [lia|]. cbn [vec_proxy_assign].
      pose proof Hpre as (Hp & Hv & Hk & Hf & _).
      destruct tx as [k a d ts]. destruct tv as [kv av dv tsv].
      assert (Hop : exists cp, h !! p = Some (Obj k cp a)).
      { pose proof (value_children _ _ _ _ Hp) as Ht0. destruct Ht0 as [(_ & E & _)|(_ & _ & cs & E & _)]; by eexists. }
      assert (Hov : exists cv, h !! v = Some (Obj kv cv av)).
      { pose proof (value_children _ _ _ _ Hv) as Ht0. destruct Ht0 as [(_ & E & _)|(_ & _ & cs & E & _)]; by eexists. }
      destruct Hop as [cp Ep]. destruct Hov as [cv Ev].
      assert (EV : exists l vp av', vec_proxy dfa h v = Ok (h ++ l, vp) /\ (h ++ l) !! vp = Some (Obj k cv av') /\
        ((vp = v /\ l = []) \/ (vp = length h /\ k = KDf))).
      { unfold vec_proxy, rd. rewrite Ev. cbn [bind o_kind o_cells]. destruct kv.
        1-3: (destruct k; cbn in Hf; try (by destruct Hf); cbn; exists [], v, av; rewrite app_nil_r; split; [done|]; split; [done|]; by left).
        cbn in Hf. assert (k = KDf) as -> by (by destruct k, Hf). eexists _, _, _. split; [done|].
        split; [by apply list_lookup_middle|]. by right. }
      destruct EV as (l & vp & av' & -> & Evp & Dvp). cbn [bind]. unfold rd.
      rewrite (lookup_app_l_Some _ _ _ _ Ep). cbn [bind]. rewrite Evp. cbn [bind o_kind]. rewrite eqb_reflx. cbn [negb].
      cbn in Hk. destruct k; [| | |done].
      - destruct Dvp as [[-> ->]|[_ ?]]; [|done]. rewrite app_nil_r. by apply leaf_ok.
      - destruct Dvp as [[-> ->]|[_ ?]]; [|done]. rewrite app_nil_r. by apply leaf_ok.
      - eapply df_ok; [by apply IH; lia|done|done|done|done|]. destruct Dvp as [[-> _]|[-> _]]; [by left|by right].
    Qed.
  End main.
End proofs.

Lemma counts_refs roots : counts roots (count_refs roots).
Proof.
  intros h x [H|(y & o & Hy & Hx)]; unfold count_refs; apply orb_true_iff.
  - left. apply existsb_exists. exists x. split; [done|]. apply Nat.eqb_refl.
  - right. apply existsb_exists. exists o. split; [by apply elem_of_list_In, elem_of_list_lookup; exists y|].
    apply existsb_exists. exists x. split; [done|]. apply Nat.eqb_refl.
Qed.

Lemma fits_kind idx tx tv : fits idx tx tv -> t_kind tx <> KRcrd -> t_kind tv = t_kind tx.
Proof. destruct tx, tv. cbn. by intros [-> _] _. Qed.
Lemma ptree_id dfa t : t_kind t <> KRcrd -> ptree dfa t = t.
Proof. by destruct t as [[] ? ? ?]. Qed.

(** ** The whole of [vec_assign()], for an object that is no record *)
Lemma assign_top roots mr dfa (Hmr : counts roots mr) idx n fuel h x v tx tv w b : n <= fuel ->
  pre roots dfa idx b w n h x v tx tv -> b = vec_owned mr h x -> t_kind tv = t_kind tx ->
  exists h' y, vec_assign mr dfa fuel h x idx v = Ok (h', y) /\ value_at n h' y = Some (put_rows idx tx tv) /\
    forall z, z < length h -> ~ W b w n h x z -> h' !! z = h !! z.
Proof.
  intros Hn Hpre Eb Hkv. destruct (vec_proxy_assign_ok roots mr dfa Hmr idx b n fuel Hn w h x v tx tv Hpre) as (h1 & y1 & E1 & HP).
  destruct Hpre as (Hx & Hv & Hk & Hf & _). destruct HP as (Hy1 & HL & HK & HA & _). destruct n as [|n]; [done|].
  destruct (vec_proxy_ok dfa n h x tx Hx) as (l & pe & EP & _ & _ & _ & _ & D).
  destruct D as [(-> & -> & _)|(_ & _ & ?)]; [|done]. rewrite app_nil_r in EP.
  assert (HT : ptree dfa tv = tv) by (apply ptree_id; congruence). rewrite HT in *.
  destruct tx as [k a d ts].
  assert (Hox : exists c, h !! x = Some (Obj k c a)).
  { pose proof (value_children _ _ _ _ Hx) as [(_ & E & _)|(_ & _ & c & E & _)]; by eexists. }
  destruct Hox as [c Hox]. destruct (HA _ Hox) as [c' Hox1]. cbn in Hox1.
  destruct (restore_ok mr n h1 y1 x _ b _ Hox1 Hy1) as (h2 & y2 & E2 & HL2 & HK2 & Hy2 & _).
  { destruct tv as [kv av dv tsv]. cbn in Hk |- *. destruct k; cbn; done. }
  exists h2, y2. unfold vec_assign. rewrite EP. cbn [bind]. rewrite <- Eb, E1. cbn [bind]. split; [done|].
  split; [rewrite Hy2; cbn in Hk |- *; by destruct k|]. intros z Hz HW. rewrite HK2 by lia. by apply HK.
Qed.

(** [vec_assign()] changes no object that was there, if a variable or another object
    holds [x] and [x] is no record: data frames, their columns, records in columns and
    elements of lists are as they were.  The result has the values put at the
    locations, the last one where a location is there twice, and nothing else changed. *)
Theorem C54_assign roots mr dfa fuel n h x v idx tx tv :
  counts roots mr -> in_use roots h x ->
  value_at n h x = Some tx -> value_at n h v = Some tv -> fits idx tx tv -> t_kind tx <> KRcrd -> n <= fuel ->
  exists h' y, vec_assign mr dfa fuel h x idx v = Ok (h', y) /\
    value_at n h' y = Some (put_rows idx tx tv) /\
    forall z, z < length h -> h' !! z = h !! z.
Proof.
  intros Hmr Hu Hx Hv Hf Hk Hn. pose proof (fits_kind _ _ _ Hf Hk) as Hkv.
  assert (Eb : vec_owned mr h x = false) by (unfold vec_owned; by rewrite (Hmr _ _ Hu)).
  destruct (assign_top roots mr dfa Hmr idx n fuel h x v tx tv false false Hn) as (h' & y & E & Hy & HK); try done.
  { unfold pre. rewrite ptree_id by congruence. repeat split; try done; by destruct H. }
  exists h', y. split; [done|]. split; [done|]. intros z Hz. apply HK; [done|]. by intros [? _].
Qed.

(** If nothing holds [x], it is changed in place, and so are its columns.  If they are
    unshared the result is right, and nothing else changes. *)
Theorem C54_owned roots mr dfa fuel n h x v idx tx tv :
  counts roots mr -> unshared n h x v ->
  value_at n h x = Some tx -> value_at n h v = Some tv -> fits idx tx tv -> t_kind tx <> KRcrd -> n <= fuel ->
  exists h' y, vec_assign mr dfa fuel h x idx v = Ok (h', y) /\
    value_at n h' y = Some (put_rows idx tx tv) /\
    forall z, z < length h -> ~ In z (rows n h x) -> h' !! z = h !! z.
Proof.
  intros Hmr [Hnd Hs] Hx Hv Hf Hk Hn. pose proof (fits_kind _ _ _ Hf Hk) as Hkv. destruct n as [|n]; [done|].
  assert (Hin : forall b z, W b true (Datatypes.S n) h x z -> In z (rows (Datatypes.S n) h x)).
  { intros [] z Hz; [done|]. destruct Hz as [_ ->]. by left. }
  destruct (assign_top roots mr dfa Hmr idx (Datatypes.S n) fuel h x v tx tv true (vec_owned mr h x) Hn) as (h' & y & E & Hy & HK); try done.
  { unfold pre. rewrite ptree_id by congruence. split; [done|]. split; [done|]. split; [done|]. split; [done|]. split; [done|]. split; [done|].
    split; [|intros z Hz; by apply Hs, (Hin (vec_owned mr h x))].
    intros _ _ Hi. destruct (Hs x) as [H1 _]; [by left|]. cbn [reach rows elements tail] in Hi, Hnd, H1.
    destruct (h !! x) as [[k c a]|]; [|done]. apply NoDup_cons_iff in Hnd as [Hnd _]. unfold fields in Hi.
    destruct k; cbn in Hi; try done;
      apply in_concat_map in Hi as (z & Hz & Hi); apply reach_split in Hi as [Hi|Hi];
      (apply Hnd + apply H1); apply in_concat_map; by exists z. }
  exists h', y. split; [done|]. split; [done|]. intros z Hz Hn'. apply HK; [done|]. intros HWz. by apply Hn', (Hin (vec_owned mr h x)).
Qed.

(** Records: the result is right if the fields are unshared, but the fields of [x]
    itself may have changed. *)
Theorem C54_rcrd_partial roots mr dfa fuel n h x v idx tx tv :
  counts roots mr -> unshared n h x v ->
  value_at n h x = Some tx -> value_at n h v = Some tv -> fits idx tx tv -> t_kind tx = KRcrd -> n <= fuel ->
  exists h' y, vec_assign mr dfa fuel h x idx v = Ok (h', y) /\
    value_at n h' y = Some (put_rows idx tx tv) /\
    forall z, z < length h -> ~ In z (tail (rows n h x)) -> h' !! z = h !! z.
Proof.
  intros Hmr [Hnd Hs] Hx Hv Hf Hk Hn. destruct n as [|n]; [done|].
  destruct (vec_proxy_ok dfa n h x tx Hx) as (l & pe & EP & Hpe & Ht & Htr & Hel & D).
  destruct D as [(_ & _ & ?)|(-> & Hl & _)]; [done|].
  destruct (frame_app _ h l v _ Hv) as (Fv & Frv & _).
  assert (Hlt : forall z, In z (reach (Datatypes.S n) h x) \/ In z (reach (Datatypes.S n) h v) -> z < length h).
  { intros z [Hz|Hz]; [exact (reach_lt _ _ _ _ Hx _ Hz)|exact (reach_lt _ _ _ _ Hv _ Hz)]. }
  set (b := vec_owned mr (h ++ l) (length h)).
  destruct tx as [k a d ts]. cbn in Hk. subst k.
  destruct tv as [kv av dv tsv]. cbn in Hf. destruct Hf as [<- Hf].
  assert (Hrows : forall z, In z (rows (Datatypes.S n) (h ++ l) (length h)) -> z = length h \/ In z (tail (rows (Datatypes.S n) h x))).
  { intros z Hz. cbn [rows] in Hz. destruct Hz as [<-|Hz]; [by left|]. right. by rewrite <- Htr. }
  assert (Htl : forall z, In z (tail (rows (Datatypes.S n) h x)) -> In z (rows (Datatypes.S n) h x)) by (intros; by right).
  assert (HWr : forall z, W b true (Datatypes.S n) (h ++ l) (length h) z -> z = length h \/ In z (tail (rows (Datatypes.S n) h x))).
  { intros z. unfold W. destruct b; [by apply Hrows|]. intros [_ ->]. by left. }
  destruct (vec_proxy_assign_ok roots mr dfa Hmr idx b (Datatypes.S n) fuel Hn true (h ++ l) (length h) v
    (ptree dfa (Tree KRcrd a d ts)) (Tree KRcrd av dv tsv)) as (h1 & y1 & E1 & HP).
  { unfold pre. split; [done|]. split; [by rewrite Fv|]. split; [done|]. split; [done|]. split.
    { intros _. cbn [rows tail] in Htr, Hnd |- *. apply NoDup_cons_iff in Hnd as [Hn1 Hn2]. rewrite Htr. constructor; [|done].
      intros Hi. assert (length h < length h); [|lia]. apply Hlt. left. apply rows_reach. by right. }
    split; [done|]. split.
    { intros _ _ Hi. rewrite Ht in Hi. assert (length h < length h); [|lia]. apply Hlt. left. by right. }
    intros z Hz. rewrite Hel, Frv. apply HWr in Hz as [->|Hz]; [|by apply Hs, Htl].
    split; intros Hi; (assert (length h < length h); [|lia]); apply Hlt; [left; by apply elements_reach|by right]. }
  destruct HP as (Hy1 & HL & HK & HA & _).
  assert (HK' : forall z, z < length h -> ~ In z (tail (rows (Datatypes.S n) h x)) -> h1 !! z = h !! z).
  { intros z Hz Hi. rewrite HK; [by apply lookup_app_l|rewrite app_length; lia|]. intros HWz. apply HWr in HWz as [->|?]; [lia|done]. }
  assert (Hox : exists c, h !! x = Some (Obj KRcrd c a)).
  { pose proof (value_children _ _ _ _ Hx) as [(? & _)|(_ & _ & c & E & _)]; [done|by eexists]. }
  destruct Hox as [c Hox]. assert (Hlx : x < length h) by (by eapply lookup_lt_Some).
  assert (Hox1 : h1 !! x = Some (Obj KRcrd c a)).
  { rewrite HK'; [done|done|]. cbn [rows tail] in Hnd |- *. apply NoDup_cons_iff in Hnd as [Hn1 _]. done. }
  destruct (restore_ok mr n h1 y1 x _ b _ Hox1 Hy1) as (h2 & y2 & E2 & HL2 & HK2 & Hy2 & _); [done|].
  exists h2, y2. unfold vec_assign. rewrite EP. cbn [bind]. fold b. rewrite E1. cbn [bind]. split; [done|].
  split; [rewrite Hy2; done|]. intros z Hz Hi. rewrite app_length in HL. rewrite HK2 by lia. by apply HK'.
Qed.

(** A size or a type that does not fit is an error. *)
Theorem C54_size mr dfa fuel n h x v idx k a ax d ts dv tsv : k = KVec \/ k = KList ->
  value_at (Datatypes.S n) h x = Some (Tree k ax d ts) -> value_at (Datatypes.S n) h v = Some (Tree k a dv tsv) ->
  length dv + length tsv <> length idx ->
  vec_assign mr dfa (Datatypes.S fuel) h x idx v = Err "`value` should have been recycled to fit `x`.".
Proof.
  intros Hk Hx Hv Hl. apply value_children in Hx, Hv.
  assert (Hox : exists c, h !! x = Some (Obj k c ax)).
  { destruct Hx as [(_ & E & _)|(_ & _ & c & E & _)]; by eexists. }
  destruct Hox as [c Hox].
  assert (Hov : exists cv, h !! v = Some (Obj k cv a) /\ length cv <> length idx).
  { destruct Hv as [(-> & E & ->)|(_ & -> & cv & E & HM)].
    - exists dv. split; [done|]. cbn in Hl. lia.
    - exists cv. split; [done|]. apply mapM_length in HM. cbn in Hl. lia. }
  destruct Hov as (cv & Hov & Hl').
  unfold vec_assign, vec_proxy, rd. rewrite Hox. cbn [bind o_kind].
  assert (HX : match k with KRcrd => Ok (h ++ [Obj KDf c (Some dfa)], length h) | _ => Ok (h, x) end = Ok (h, x)) by (by destruct Hk as [->| ->]).
  cbn [o_cells]. rewrite HX. cbn [bind vec_proxy_assign]. unfold vec_proxy, rd. rewrite Hov. cbn [bind o_kind o_cells].
  assert (HV : match k with KRcrd => Ok (h ++ [Obj KDf cv (Some dfa)], length h) | _ => Ok (h, v) end = Ok (h, v)) by (by destruct Hk as [->| ->]).
  rewrite HV. cbn [bind]. rewrite Hox, Hov. cbn [bind o_kind]. rewrite eqb_reflx. cbn [negb].
  unfold assign_index, rd. rewrite Hov. cbn [bind o_cells].
  replace (length idx =? length cv) with false by (symmetry; apply Nat.eqb_neq; lia).
  by destruct Hk as [->| ->].
Qed.
Theorem C54_type mr dfa fuel n h x v idx tx tv :
  value_at (Datatypes.S n) h x = Some tx -> value_at (Datatypes.S n) h v = Some tv ->
  (t_kind tx = KVec <-> t_kind tv <> KVec) ->
  vec_assign mr dfa (Datatypes.S fuel) h x idx v = Err "`proxy` incompatible with `value` proxy".
Proof.
  intros Hx Hv Hk. unfold vec_assign.
  destruct (vec_proxy_ok dfa n h x tx Hx) as (l & pe & -> & Hpe & _ & _ & _ & _). cbn [bind vec_proxy_assign].
  assert (Hv' : value_at (Datatypes.S n) (h ++ l) v = Some tv) by (destruct (frame_app _ h l v _ Hv) as (-> & _); done).
  destruct (vec_proxy_ok dfa n (h ++ l) v tv Hv') as (l' & pv & -> & Hpv & _ & _ & _ & _). cbn [bind].
  assert (Hpe' : value_at (Datatypes.S n) ((h ++ l) ++ l') pe = Some (ptree dfa tx)) by (destruct (frame_app _ (h ++ l) l' pe _ Hpe) as (-> & _); done).
  assert (HO : forall h y t, value_at (Datatypes.S n) h y = Some t -> exists o, h !! y = Some o /\ o_kind o = t_kind t).
  { intros h0 y [k a d ts] Ht. apply value_children in Ht as [(_ & E & _)|(_ & _ & c & E & _)]; by eexists. }
  destruct (HO _ _ _ Hpe') as (o & Eo & Ko). destruct (HO _ _ _ Hpv) as (ov & Eov & Kov).
  unfold rd. rewrite Eo. cbn [bind]. rewrite Eov. cbn [bind]. rewrite Ko, Kov.
  assert (HE : Bool.eqb (is_list (t_kind (ptree dfa tx))) (is_list (t_kind (ptree dfa tv))) = false).
  { destruct tx as [[] ? ? ?], tv as [[] ? ? ?]; cbn in *; try done; exfalso; destruct Hk as [H1 H2]; first [by apply (H1 eq_refl)|discriminate (H2 ltac:(done))]. }
  rewrite HE. done.
Qed.

(** ** Examples *)
(** A data frame with a vector, a list, a record and a data frame as columns; the
    vector is also the first field of the record *)
Definition ex_heap : heap :=
  [Obj KVec [1; 2; 3] None; Obj KVec [4; 5; 6] (Some 7%Z); Obj KList [0; 1; 0] None; Obj KRcrd [0; 1] (Some 8%Z);
   Obj KDf [1] (Some 9%Z); Obj KDf [0; 2; 3; 4] (Some 9%Z);
   Obj KVec [10; 20] None; Obj KVec [40; 50] (Some 7%Z); Obj KList [6; 6] None; Obj KRcrd [6; 7] (Some 8%Z);
   Obj KDf [7] (Some 9%Z); Obj KDf [6; 8; 9; 10] (Some 9%Z)].
Definition ex_idx : list (option nat) := [Some 2; None].
Example C54_example : exists tx tv h' y,
  counts [5; 11] (count_refs [5; 11]) /\ in_use [5; 11] ex_heap 5 /\
  value_at 4 ex_heap 5 = Some tx /\ value_at 4 ex_heap 11 = Some tv /\ fits ex_idx tx tv /\
  vec_assign (count_refs [5; 11]) 9%Z 4 ex_heap 5 ex_idx 11 = Ok (h', y) /\
  take 12 h' = ex_heap /\
  value_at 4 h' y = Some (Tree KDf (Some 9%Z) []
    [Tree KVec None [1; 2; 10] [];
     Tree KList None [] [Tree KVec None [1; 2; 3] []; Tree KVec (Some 7%Z) [4; 5; 6] []; Tree KVec None [10; 20] []];
     Tree KRcrd (Some 8%Z) [] [Tree KVec None [1; 2; 10] []; Tree KVec (Some 7%Z) [4; 5; 40] []];
     Tree KDf (Some 9%Z) [] [Tree KVec (Some 7%Z) [4; 5; 40] []]]).
Proof.
  do 4 eexists. split; [apply counts_refs|]. split; [left; by left|]. split; [reflexivity|]. split; [reflexivity|].
  split.
  { cbn. repeat split; intros i [H|[H|[]]]; try done; injection H as <-; lia. }
  split; [vm_compute; reflexivity|]. split; vm_compute; reflexivity.
Qed.
(** Two fields that are two objects *)
Definition rc_heap : heap :=
  [Obj KVec [1; 2; 3] None; Obj KVec [4; 5; 6] None; Obj KRcrd [0; 1] (Some 8%Z);
   Obj KVec [10] None; Obj KVec [20] None; Obj KRcrd [3; 4] (Some 8%Z)].
Lemma rc_unshared : unshared 2 rc_heap 2 5.
Proof.
  split.
  - cbn. repeat constructor; cbn; lia.
  - cbn. intros z Hz. split; [tauto|]. lia.
Qed.
Example C54_rcrd_example : exists tx tv,
  value_at 2 rc_heap 2 = Some tx /\ value_at 2 rc_heap 5 = Some tv /\ fits [Some 0] tx tv /\ unshared 2 rc_heap 2 5.
Proof.
  do 2 eexists. split; [reflexivity|]. split; [reflexivity|]. split; [|apply rc_unshared].
  cbn. repeat split; intros i [H|[]]; injection H as <-; lia.
Qed.

(** ** What is wrong *)
(** A variable holds a record; [vec_assign()] changes it: the proxy is a new data
    frame that nothing holds, hence its columns are taken as owned, but they are the
    fields of the record. *)
Theorem C54_rcrd_refuted : exists roots h x v idx tx tv h' y,
  counts roots (count_refs roots) /\ In x roots /\ In v roots /\ unshared 2 h x v /\
  value_at 2 h x = Some tx /\ value_at 2 h v = Some tv /\ fits idx tx tv /\
  vec_assign (count_refs roots) 9%Z 2 h x idx v = Ok (h', y) /\
  y <> x /\ value_at 2 h' x = Some (put_rows idx tx tv) /\ put_rows idx tx tv <> tx.
Proof.
  exists [2; 5], rc_heap, 2, 5, [Some 0]. do 4 eexists.
  split; [apply counts_refs|]. split; [by left|]. split; [right; by left|]. split; [apply rc_unshared|].
  split; [reflexivity|]. split; [reflexivity|]. split.
  { cbn. repeat split; intros i [H|[]]; injection H as <-; lia. }
  split; [vm_compute; reflexivity|]. split; [done|]. split; [vm_compute; reflexivity|]. vm_compute. done.
Qed.
(** The same vector as two fields: the result has the values of the last field in both. *)
Theorem C54_alias_refuted : exists roots h x v idx tx tv h' y,
  counts roots (count_refs roots) /\ In x roots /\ In v roots /\
  value_at 2 h x = Some tx /\ value_at 2 h v = Some tv /\ fits idx tx tv /\
  vec_assign (count_refs roots) 9%Z 2 h x idx v = Ok (h', y) /\
  put_rows idx tx tv = Tree KRcrd (Some 8%Z) [] [Tree KVec None [10; 2; 3] []; Tree KVec None [20; 2; 3] []] /\
  value_at 2 h' y = Some (Tree KRcrd (Some 8%Z) [] [Tree KVec None [20; 2; 3] []; Tree KVec None [20; 2; 3] []]).
Proof.
  exists [1; 4], [Obj KVec [1; 2; 3] None; Obj KRcrd [0; 0] (Some 8%Z);
    Obj KVec [10] None; Obj KVec [20] None; Obj KRcrd [2; 3] (Some 8%Z)], 1, 4, [Some 0]. do 4 eexists.
  split; [apply counts_refs|]. split; [by left|]. split; [right; by left|].
  split; [reflexivity|]. split; [reflexivity|]. split.
  { cbn. repeat split; intros i [H|[]]; injection H as <-; lia. }
  split; [vm_compute; reflexivity|]. split; vm_compute; reflexivity.
Qed.
(** A record put into itself in the reverse order: what has been overwritten is read. *)
Theorem C54_self_refuted : exists roots h x idx tx h' y,
  counts roots (count_refs roots) /\ In x roots /\
  value_at 2 h x = Some tx /\ fits idx tx tx /\
  vec_assign (count_refs roots) 9%Z 2 h x idx x = Ok (h', y) /\
  put_rows idx tx tx = Tree KRcrd (Some 8%Z) [] [Tree KVec None [3; 2; 1] []] /\
  value_at 2 h' y = Some (Tree KRcrd (Some 8%Z) [] [Tree KVec None [1; 2; 1] []]).
Proof.
  exists [1], [Obj KVec [1; 2; 3] None; Obj KRcrd [0] (Some 8%Z)], 1, [Some 2; Some 1; Some 0]. do 3 eexists.
  split; [apply counts_refs|]. split; [by left|]. split; [reflexivity|]. split.
  { cbn. repeat split; intros i [H|[H|[H|[]]]]; injection H as <-; lia. }
  split; [vm_compute; reflexivity|]. split; vm_compute; reflexivity.
Qed.

Print Assumptions C54_assign.
Print Assumptions C54_owned.
Print Assumptions C54_rcrd_partial.
Print Assumptions C54_size.
Print Assumptions C54_type.
Print Assumptions C54_rcrd_refuted.
Print Assumptions C54_alias_refuted.
Print Assumptions C54_self_refuted.
