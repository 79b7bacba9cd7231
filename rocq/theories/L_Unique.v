(** * Lemmas: vec_unique_loc beyond 2^30 distinct elements *)
From Verif Require Import Base M_Growable M_Hash M_Dict L_Proxy L_DictNum L_Dict L_Growable L_DictOps L_DictOps2.
From Coq Require Import ZifyBool ZifyNat.

Lemma for_app {S} lo a b body (s : S) :
  for_ lo (a + b) body s = (let! s' := for_ lo a body s in for_ (lo + a) b body s').
Proof.
  revert lo s. induction a as [|a IH]; intros lo s; simpl; [by rewrite Nat.add_0_r|].
  destruct (body lo s) as [s'| |]; simpl; [|done|done]. rewrite IH. by rewrite Nat.add_succ_r.
Qed.

Section ops.
  Context {A B : Type} (eqb : A -> A -> bool) (sem : A -> B) (dom : A -> Prop) (hf : A -> Z).
  Context (eqb_spec : forall a b, dom a -> dom b -> eqb a b = true <-> sem a = sem b).
  Context (hf_spec : forall a b, dom a -> dom b -> sem a = sem b -> hf a = hf b).
  Notation dinv := (dinv eqb sem dom hf).
  Notation firsts := (firsts eqb).
  Notation X x := (map sem x).

  Lemma firsts_reach x n k : k < length (firsts x n) -> exists m, m < n /\ length (firsts x m) = k /\ firstb eqb x m = true.
  Proof.
    induction n as [|n IH]; [simpl; lia|]. rewrite firsts_S, app_length. intros H.
    destruct (decide (k < length (firsts x n))) as [Hlt|Hge].
    - destruct (IH Hlt) as (m & Hm & R). exists m. split; [lia|done].
    - destruct (firstb eqb x n) eqn:E; simpl in H; [|lia]. exists n. split; [lia|]. split; [lia|done].
  Qed.

  Lemma vec_unique_loc_overflow x : Forall dom x -> fits x -> (2 ^ 30 < Z.of_nat (length (firsts x (length x))))%Z ->
    vec_unique_loc eqb x (map hf x) = UB "signed integer overflow".
  Proof.
    intros Hx Hl Hlim. unfold vec_unique_loc.
    destruct (Z_of_nat_complete (2 ^ 30)) as [K HK]; [lia|].
    destruct (firsts_reach x (length x) K) as (m & Hm & Hfm & Fm); [lia|].
    destruct (new_dictionary_inv eqb sem dom hf x Hx Hl) as (d & -> & I & _). simpl.
    replace (length x) with (m + S (length x - m - 1)) by lia. rewrite for_app.
    match goal with |- context [for_ 0 m ?body ?s0] =>
      destruct (for_inv (fun m '(d, g) => dinv x d m /\ ginv g (map loc_of (firsts x m)) /\ gcap 256 g) 0 m body s0)
        as ([d' g] & -> & I' & G & C) end.
    - split_and!; [done| |apply gcap_new]. by apply (new_growable_inv 256).
    - intros i [d1 g1] Hi (I1 & G1 & C1).
      destruct (visit_step eqb sem dom hf eqb_spec hf_spec x d1 i I1) as (d2 & s & f & key & -> & I2 & Hsz & Hs & Ek & Hf & Ff & Ef & _ & Hc); [lia|].
      simpl. destruct Hc as [(-> & -> & _)|(-> & Hlt & ->)].
      + simpl. assert (Efb : firstb eqb x i = true) by (by apply (firstb_spec eqb sem dom eqb_spec); [|lia|]).
        assert (Hlen : S (length (firsts x i)) <= length (firsts x m)).
        { etransitivity; [|apply (firsts_mono eqb x (S i)); lia]. rewrite firsts_S, Efb, app_length. simpl. lia. }
        destruct (growable_push_inv g1 (map loc_of (firsts x i)) (Z.of_nat i + 1)%Z) as (g2 & -> & G2 & E2); [done| |].
        { rewrite map_length. lia. }
        simpl. eexists. split; [reflexivity|]. cbv beta iota. rewrite firsts_S, Efb, map_app. split_and!; [done|done|].
        by eapply gcap_push.
      + rewrite key_empty. eexists. split; [reflexivity|].
        assert (Efb : firstb eqb x i = false).
        { apply Bool.not_true_is_false. intros E. apply (firstb_spec eqb sem dom eqb_spec) in E; [|done|lia].
          by apply (E f Hlt). }
        cbv beta iota. rewrite firsts_S, Efb, app_nil_r. done.
    - cbn [bind]. cbn [for_]. rewrite Nat.add_0_l in *.
      destruct (visit_step eqb sem dom hf eqb_spec hf_spec x d' m I') as (d2 & s & f & key & -> & I2 & Hsz & Hs & Ek & Hf & Ff & Ef & _ & Hc); [lia|].
      cbn [bind]. destruct Hc as [(-> & -> & _)|(-> & Hlt & ->)].
      + change ((DICT_EMPTY =? DICT_EMPTY)%Z) with true. cbv iota.
        rewrite (growable_push_overflow g (map loc_of (firsts x m))); [done|done|done|].
        rewrite map_length, Hfm. by rewrite HK.
      + exfalso. apply (firstb_spec eqb sem dom eqb_spec) in Fm; [|done|lia]. by apply (Fm f Hlt).
  Qed.
End ops.
