(** * Properties: outer names (C44) *)
From Verif Require Import Base M_Double M_Scalar M_Hash M_Object M_Proxy M_Growable M_Dict M_DictApi M_Slice M_Factor M_Names.
From Verif Require Import L_Dbl Spec_Names L_Names L_Names2 P_Names.
From Coq Require Import ZifyBool ZifyNat.
#[local] Arguments Z.mul : simpl never.
#[local] Arguments Z.add : simpl never.
#[local] Arguments Z.sub : simpl never.
#[local] Arguments Z.to_nat : simpl never.
#[local] Arguments Z.of_nat : simpl never.

(** The text of a string: a missing string reads "NA". *)
Definition text (s : rstr) : list Z := match s with Some b => b | None => [78; 65]%Z end.
(** A C string: no null byte inside *)
Definition no_nul (b : list Z) : Prop := Forall (fun c => c <> 0%Z) b.

Lemma max_len_ge (names : list rstr) s : s ∈ names -> (Z.of_nat (length (text s)) <= r_chr_max_len names)%Z.
Proof.
  unfold r_chr_max_len. induction names as [|x l IH]; intros Hs; simpl; [by apply elem_of_nil in Hs|].
  apply elem_of_cons in Hs as [->|Hs].
  - change (c_string x) with (text x). lia.
  - specialize (IH Hs). lia.
Qed.
Lemma max_len_le (names : list rstr) k : (0 <= k)%Z -> (forall s, s ∈ names -> (Z.of_nat (length (text s)) <= k)%Z) -> (0 <= r_chr_max_len names <= k)%Z.
Proof.
  intros Hk. unfold r_chr_max_len. induction names as [|x l IH]; intros H; simpl; [lia|].
  assert (Hx : (Z.of_nat (length (c_string x)) <= k)%Z) by (apply (H x); by left).
  specialize (IH ltac:(intros s Hs; apply H; by right)). lia.
Qed.

Lemma until_nul_app b r : no_nul b -> until_nul (b ++ 0%Z :: r) = b.
Proof.
  induction 1 as [|c b Hc _ IH]; simpl; [done|]. destruct (Z.eqb_spec c 0); [done|]. by rewrite IH.
Qed.

(** Pasting a prefix never writes outside the buffer, whatever the buffer held
    before, and yields prefix, separator and name. *)
Theorem C44_paste filler (names : list rstr) prefix sep :
  no_nul prefix -> no_nul sep -> Forall (fun s => no_nul (text s)) names ->
  (forall s, s ∈ names -> (Z.of_nat (length prefix) + Z.of_nat (length sep) + Z.of_nat (length (text s)) < INT_MAX)%Z) ->
  (Z.of_nat (length prefix) + Z.of_nat (length sep) < INT_MAX)%Z ->
  r_chr_paste_prefix filler names prefix sep = Ok (map (fun s => Some (prefix ++ sep ++ text s)) names).
Proof.
  intros Np Ns Nn Hfit Hfit0. unfold r_chr_paste_prefix, strlen_int.
  destruct (Z.leb_spec (Z.of_nat (length prefix)) INT_MAX); [|lia]. cbn [bind].
  destruct (Z.leb_spec (Z.of_nat (length sep)) INT_MAX); [|lia]. cbn [bind].
  set (M := r_chr_max_len names).
  assert (HM : (0 <= M <= INT_MAX - 1 - Z.of_nat (length prefix) - Z.of_nat (length sep))%Z).
  { apply max_len_le; [lia|]. intros s Hs. specialize (Hfit s Hs). lia. }
  destruct (Z.ltb_spec INT_MAX (Z.of_nat (length prefix) + M + Z.of_nat (length sep) + 1)); [lia|].
  set (total := (Z.of_nat (length prefix) + M + Z.of_nat (length sep) + 1)%Z).
  set (buf0 := map filler (seq 0 (Z.to_nat (Z.max 4096 total)))).
  assert (Hb0 : length buf0 = Z.to_nat (Z.max 4096 total)) by (unfold buf0; by rewrite map_length, seq_length).
  assert (Hw : wrZ buf0 (total - 1) 0%Z = Ok (<[Z.to_nat (total - 1) := 0%Z]> buf0)).
  { unfold wrZ. destruct (Z.ltb_spec (total - 1) 0); [unfold total in *; lia|]. apply wr_Ok. unfold total in *. lia. }
  rewrite Hw. cbn [bind]. clear Hw. set (buf1 := <[Z.to_nat (total - 1) := 0%Z]> buf0).
  assert (Hb1 : length buf1 = Z.to_nat (Z.max 4096 total)) by (unfold buf1; by rewrite insert_length).
  clearbody buf1. clear Hb0 buf0.
  unfold memcpy_at at 1. destruct (Nat.leb_spec (0 + length prefix) (length buf1)); [|unfold total in *; lia]. cbn [bind].
  unfold memcpy_at at 1. destruct (Nat.leb_spec (length prefix + length sep) (length (take 0 buf1 ++ prefix ++ drop (0 + length prefix) buf1))) as [|Hbad].
  2: { rewrite !app_length, drop_length in Hbad. simpl in Hbad. unfold total in *; lia. }
  cbn [bind]. rewrite take_0, app_nil_l, take_app.
  set (buf2 := prefix ++ sep ++ _).
  assert (Hb2 : length buf2 = Z.to_nat (Z.max 4096 total) /\ take (length prefix + length sep) buf2 = prefix ++ sep).
  { unfold buf2. split.
    - rewrite !app_length, drop_length, app_length, drop_length. unfold total in *. lia.
    - rewrite app_assoc. rewrite <-app_length. apply take_app. }
  clearbody buf2.
  destruct (for_inv (fun k '((buf, out) : list Z * list rstr) =>
      length buf = Z.to_nat (Z.max 4096 total) /\ take (length prefix + length sep) buf = prefix ++ sep /\
      length out = length names /\
      (forall j s, j < k -> names !! j = Some s -> out !! j = Some (Some (prefix ++ sep ++ text s) : rstr)) /\
      (forall j, k <= j -> out !! j = names !! j)) 0 (length names)
    (fun i '(buf, out) =>
      let! s := rd out i in
      let inner := c_string s in
      let! buf := memcpy_at buf (length prefix + length sep) inner in
      let! buf := wr buf (length prefix + length sep + length inner) 0%Z in
      let! out := wr out i (Some (until_nul buf)) in
      Ok (buf, out)) (buf2, names)) as ([buf out] & E & (Hlb & Ht & Hlo & HP & HQ)).
  - split_and!; try done; [apply Hb2|apply Hb2|lia].
  - intros i [buf out] Hi (Hlb & Ht & Hlo & HP & HQ). destruct (lookup_lt_is_Some_2 names i ltac:(lia)) as [s Hs].
    assert (Ho : out !! i = Some s) by (by rewrite HQ). rewrite (rd_str _ _ _ Ho). cbn [bind].
    assert (HsM : (Z.of_nat (length (text s)) <= M)%Z) by (apply max_len_ge; by eapply elem_of_list_lookup_2).
    change (c_string s) with (text s).
    assert (Hns : no_nul (text s)) by (exact (proj1 (Forall_lookup _ _) Nn _ _ Hs)).
    unfold memcpy_at. destruct (Nat.leb_spec (length prefix + length sep + length (text s)) (length buf)); [|unfold total in *; lia].
    cbn [bind]. rewrite Ht.
    assert (Hlen : length ((prefix ++ sep) ++ text s ++ drop (length prefix + length sep + length (text s)) buf) = length buf).
    { rewrite !app_length, drop_length. lia. }
    rewrite wr_Ok by (rewrite Hlen; unfold total in *; lia). cbn [bind].
    destruct (drop (length prefix + length sep + length (text s)) buf) as [|c r] eqn:Ed.
    { apply (f_equal (@length Z)) in Ed. rewrite drop_length in Ed. simpl in Ed. unfold total in *. lia. }
    assert (Hins : <[length prefix + length sep + length (text s) := 0%Z]> ((prefix ++ sep) ++ text s ++ c :: r) = (prefix ++ sep ++ text s) ++ 0%Z :: r).
    { replace (length prefix + length sep + length (text s)) with (length (prefix ++ sep ++ text s) + 0) by (rewrite !app_length; lia).
      replace ((prefix ++ sep) ++ text s ++ c :: r) with ((prefix ++ sep ++ text s) ++ c :: r) by (by rewrite <-!app_assoc).
      by rewrite insert_app_r. }
    rewrite Hins. rewrite until_nul_app by (unfold no_nul in *; rewrite !Forall_app; done).
    assert (Hw : wr out i (Some (prefix ++ sep ++ text s) : rstr) = Ok (<[i := (Some (prefix ++ sep ++ text s) : rstr)]> out)) by (apply wr_Ok; lia).
    eexists (_, _). split; [exact (f_equal (fun m => bind m (fun l => Ok (_, l))) Hw)|]. split_and!.
    + rewrite <-Hlb, <-Hlen, !app_length. simpl. lia.
    + rewrite app_assoc, <-app_assoc, <-app_length. apply take_app.
    + by rewrite insert_length.
    + intros j s' Hj Hs'. destruct (decide (j = i)) as [->|].
      * assert (s' = s) as -> by congruence. exact (list_lookup_insert out i _ ltac:(lia)).
      * rewrite list_lookup_insert_ne by done. apply HP; [lia|done].
    + intros j Hj. rewrite list_lookup_insert_ne by lia. apply HQ. lia.
  - refine (eq_trans (f_equal (fun m => bind m (fun '(_, out) => Ok out)) E) _). cbn [bind]. f_equal. apply list_eq_same_length with (length names); [by rewrite map_length|done|].
    intros j x y Hj Hx Hy. destruct (lookup_lt_is_Some_2 names j Hj) as [s Hs].
    pose proof (HP j s ltac:(lia) Hs) as E1. rewrite list_lookup_fmap, Hs in Hy. simpl in Hy.
    pose proof (eq_trans (eq_sym E1) Hx) as Ex. injection Ex as <-. by injection Hy as <-.
Qed.
Print Assumptions C44_paste.

Lemma r_is_empty_names_spec (x : list rstr) : exists b, r_is_empty_names (Some x) = Ok b /\ (b = true <-> Forall (fun s => s = None \/ s = Some []) x).
Proof.
  unfold r_is_empty_names.
  destruct (for_brk_inv (fun k b => b = true /\ forall i s, i < k -> x !! i = Some s -> s = (None : rstr) \/ s = Some [])
    (fun b => b = true <-> Forall (fun s : rstr => s = None \/ s = Some []) x) 0 (length x)
    (fun i b => let! elt := rd x i in
        Ok (if negb (str_ptr_eqb elt None) && negb (str_ptr_eqb elt empty_str) then Break false else Next b)) true) as (b & E & Hb).
  - split; [done|]. intros; lia.
  - intros i b Hi (-> & H). destruct (lookup_lt_is_Some_2 x i ltac:(lia)) as [s Hs]. rewrite (rd_str _ _ _ Hs). cbn [bind].
    destruct (str_ptr_eqb s None) eqn:E1; [|destruct (str_ptr_eqb s empty_str) eqn:E2]; simpl; [left|left|right].
    1, 2: eexists; split; [done|]; split; [done|]; intros j t Hj Ht; (destruct (decide (j = i)) as [->|]; [|eapply H; [|done]; lia]);
        assert (t = s) as -> by congruence.
    + left. by apply str_ptr_eqb_spec in E1.
    + right. by apply str_ptr_eqb_spec in E2.
    + eexists. split; [done|]. split; [done|]. intros F. pose proof (proj1 (Forall_lookup _ _) F _ _ Hs) as [-> | ->]; done.
  - intros b (-> & H). split; [|done]. intros _. apply Forall_lookup. intros i s Hs. eapply H; [|done]. apply lookup_lt_Some in Hs. lia.
  - exists b. done.
Qed.

(** What [outer_names()] returns: the inner names if there is no outer name; the
    outer name itself, or the outer name followed by positions, if there are no
    inner names; else outer name, two dots, inner name. *)
Definition outer_spec (names : option (list rstr)) (outer : option rstr) (n : nat) (out : option (list rstr)) : Prop :=
  match outer with
  | None | Some None | Some (Some []) => out = names
  | Some (Some o) =>
      (match names with None => True | Some nms => Forall (fun s => s = None \/ s = Some []) nms end /\
         ((n = 1 /\ out = Some [Some o]) \/
          (n <> 1 /\ exists l, out = Some l /\ length l = n /\
             forall i, i < n -> exists ds, writes (Z.of_nat i + 1) ds /\ l !! i = Some (Some (o ++ ds))))) \/
      (exists nms, names = Some nms /\ (exists s, s ∈ nms /\ s <> None /\ s <> Some []) /\
         out = Some (map (fun s => Some (o ++ [46; 46]%Z ++ text s)) nms))
  end.

Theorem C44_outer filler names outer n : (Z.of_nat n <= INT_MAX)%Z ->
  (forall o, outer = Some (Some o) -> no_nul o /\ (Z.of_nat (length o) + 25 <= INT_MAX)%Z) ->
  (forall nms, names = Some nms -> Forall (fun s => no_nul (text s)) nms) ->
  (forall o nms s, outer = Some (Some o) -> names = Some nms -> s ∈ nms -> (Z.of_nat (length o) + Z.of_nat (length (text s)) + 2 < INT_MAX)%Z) ->
  exists out, outer_names filler names outer n = Ok out /\ outer_spec names outer n out.
Proof.
  intros Hn Ho Hnn Hfit. unfold outer_names. destruct outer as [[[|c o]|]|]; [eexists; split; done| |eexists; split; done|eexists; split; done].
  set (oo := c :: o) in *. destruct (Ho oo eq_refl) as [No Lo].
  destruct (str_ptr_eqb (Some oo) empty_str || str_ptr_eqb (Some oo) None) eqn:E; [unfold oo in E; simpl in E; done|]. clear E.
  assert (Hempty : (match names with None => True | Some nms => Forall (fun s => s = None \/ s = Some []) nms end) ->
    exists out, (if (n =? 1) then Ok (Some [Some oo]) else r_seq_chr (c_string (Some oo)) n) = Ok out /\ outer_spec names (Some (Some oo)) n out).
  { intros He. destruct (Nat.eqb_spec n 1) as [->|Hne].
    - eexists. split; [done|]. left. split; [done|]. by left.
    - unfold r_seq_chr, strlen_int. simpl c_string. destruct (Z.leb_spec (Z.of_nat (length oo)) INT_MAX); [|lia]. cbn [bind].
      destruct (Z.ltb_spec INT_MAX (24 + Z.of_nat (length oo) + 1)); [lia|].
      destruct (r_chr_iota_spec n (24 + Z.of_nat (length oo) + 1) oo) as (l & -> & Hl & Hi); [lia|lia|done|].
      eexists. split; [done|]. left. split; [done|]. right. split; [done|]. by exists l. }
  destruct names as [nms|].
  - destruct (r_is_empty_names_spec nms) as (b & -> & Hb). cbn [bind]. destruct b; [apply Hempty; by apply Hb|].
    rewrite C44_paste.
    + cbn [bind]. eexists. split; [done|]. right. exists nms. split_and!; [done| |done].
      destruct (decide (Exists (fun s : rstr => ~ (s = None \/ s = Some [])) nms)) as [Ex|Nex].
      * apply Exists_exists in Ex as (s & Hs & Hx). exists s. split_and!; [done|tauto|tauto].
      * exfalso. assert (false = true); [|done]. apply Hb. apply not_Exists_Forall in Nex; [|solve_decision].
        eapply Forall_impl; [exact Nex|]. simpl. intros s Hx. destruct s as [[|]|]; try tauto. exfalso. apply Hx. intros [?|?]; done.
    + done.
    + repeat constructor; lia.
    + by apply Hnn.
    + intros s Hs. specialize (Hfit oo nms s eq_refl eq_refl Hs). simpl c_string. simpl (length [46; 46]%Z). lia.
    + simpl c_string. simpl (length [46; 46]%Z). lia.
  - cbn [r_is_empty_names bind]. by apply Hempty.
Qed.
Print Assumptions C44_outer.

(** "a" and ("x", NA, "") *)
Example C44_ex : outer_names (fun _ => 7%Z) (Some [nm [120]; None; nm []])%Z (Some (nm [97])%Z) 3 =
  Ok (Some [nm [97;46;46;120]; nm [97;46;46;78;65]; nm [97;46;46]])%Z.
Proof. vm_compute. reflexivity. Qed.
Example C44_ex_seq : outer_names (fun _ => 7%Z) None (Some (nm [97])%Z) 3 = Ok (Some [nm [97;49]; nm [97;50]; nm [97;51]])%Z.
Proof. vm_compute. reflexivity. Qed.
Example C44_ex_meets : exists out, outer_names (fun _ => 7%Z) (Some [nm [120]; None; nm []])%Z (Some (nm [97])%Z) 3 = Ok out /\
  outer_spec (Some [nm [120]; None; nm []])%Z (Some (nm [97])%Z) 3 out.
Proof.
  apply C44_outer.
  - done.
  - intros o [= <-]. split; [repeat constructor; lia|done].
  - intros nms [= <-]. repeat apply Forall_cons_2; [..|apply Forall_nil_2]; repeat constructor; simpl; lia.
  - intros o nms s [= <-] [= <-] Hs. repeat (apply elem_of_cons in Hs as [->|Hs]; [unfold INT_MAX; simpl; lia|]). by apply elem_of_nil in Hs.
Qed.
