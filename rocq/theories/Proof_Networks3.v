(** The values of the networks. *)
From Coq Require Import Reals ZArith String List Bool Lra Lia.
From Verif Require Import Base BaseLemmas Model_Networks Spec_Networks2.
Import ListNotations.
Open Scope R_scope.

Lemma Rsum_weighted w x : Rsum_n (length x) (fun i => w i * nth i x 0) = weighted w x.
Proof.
  unfold Rsum_n. revert w. induction x as [|v x IH]; intros w; [reflexivity|].
  cbn [length seq map fold_right weighted nth]. f_equal. rewrite <- (IH (fun i => w (S i))).
  rewrite <- seq_shift, map_map. reflexivity.
Qed.
Lemma linear_value l row out : apply_linear l row = Ok out ->
  out = map (fun o => weighted (l_w l o) row + l_b l o) (seq 0 (l_out l)).
Proof.
  unfold apply_linear. destruct (Nat.eqb_spec (length row) (l_in l)) as [E|E]; [|discriminate].
  intros Q. assert (Q' : map (fun o => Rsum_n (l_in l) (fun i => l_w l o i * nth i row 0) + l_b l o) (seq 0 (l_out l)) = out) by congruence.
  rewrite <- Q'. apply map_ext. intros o. rewrite <- E, Rsum_weighted. reflexivity.
Qed.
Lemma layer_value l f row out : apply_layer (l, f) row = Ok out -> out = neurons l f row.
Proof.
  unfold apply_layer. cbn [fst snd]. destruct (apply_linear l row) as [o|] eqn:E; cbn [bind]; [|discriminate].
  apply linear_value in E. intros Q. assert (out = map f o) as -> by congruence.
  rewrite E. unfold neurons. rewrite map_map. reflexivity.
Qed.

Lemma nerf_loop_value net i identity out res : (forall j, In j [4%nat] -> (j < i)%nat) ->
  nerf_loop [4%nat] i net identity out = Ok res -> res = signal net out.
Proof.
  revert i out. induction net as [|[l f] net IH]; intros i out H; cbn [nerf_loop signal]; [congruence|].
  destruct (apply_layer (l, f) out) as [o|] eqn:E; cbn [bind]; [|discriminate].
  apply layer_value in E. subst o.
  replace (existsb (Nat.eqb i) [4%nat]) with false.
  - apply IH. intros j J. specialize (H j J). lia.
  - symmetry. cbn [existsb]. specialize (H 4%nat (or_introl eq_refl)). destruct (Nat.eqb_spec i 4); [lia|reflexivity].
Qed.
Lemma nerf_loop_before net i identity out res : (i <= 4)%nat ->
  nerf_loop [4%nat] i net identity out = Ok res ->
  res = if (length net <=? 4 - i)%nat then signal net out
        else signal (skipn (5 - i) net) (signal (firstn (5 - i) net) out ++ identity).
Proof.
  revert i out. induction net as [|[l f] net IH]; intros i out H; cbn [nerf_loop].
  - intros Q. cbn [length]. destruct (Nat.leb_spec 0 (4 - i)); [|lia]. cbn [signal]. congruence.
  - destruct (apply_layer (l, f) out) as [o|] eqn:E; cbn [bind]; [|discriminate].
    apply layer_value in E. subst o. replace (5 - i)%nat with (S (4 - i)) by lia.
    cbn [firstn skipn signal length]. destruct (Nat.eq_dec i 4) as [->|D].
    + cbn [existsb Nat.eqb orb]. intros Q. apply nerf_loop_value in Q; [|cbn; intuition lia].
      cbn [Nat.sub firstn skipn Nat.leb signal]. exact Q.
    + replace (existsb (Nat.eqb i) [4%nat]) with false by (cbn [existsb]; destruct (Nat.eqb_spec i 4); [lia|reflexivity]).
      intros Q. apply IH in Q; [|lia]. rewrite Q. replace (5 - S i)%nat with (4 - i)%nat by lia.
      replace (S (length net) <=? 4 - i)%nat with (length net <=? 4 - S i)%nat; [reflexivity|].
      destruct (Nat.leb_spec (length net) (4 - S i)), (Nat.leb_spec (S (length net)) (4 - i)); try reflexivity; lia.
Qed.

Lemma nerf_layer_shape d k n m f l : nerf_layer d k n m f = Ok l -> snd l = f /\ l_in (fst l) = n /\ l_out (fst l) = m.
Proof.
  unfold nerf_layer. destruct (Nat.eqb (n + m) 0); [discriminate|]. unfold uniform_.
  destruct (Rlt_dec _ 0); cbn [bind]; [discriminate|]. intros Q. assert (Q' := f_equal (fun x => match x with Ok l => l | Err _ => l end) Q).
  cbn in Q'. rewrite <- Q'. auto.
Qed.
Lemma nerf_hidden_acts d inf n skip i count ls : nerf_hidden d inf n skip i count = Ok ls ->
  length ls = count /\ forall l, In l ls -> snd l = relu /\ l_out (fst l) = n.
Proof.
  revert i ls. induction count as [|c IH]; intros i ls; cbn [nerf_hidden].
  - intros Q. assert (ls = []) as -> by congruence. split; [reflexivity|contradiction].
  - destruct (nerf_layer d (S i) _ n relu) as [l|] eqn:E; cbn [bind]; [|discriminate].
    destruct (nerf_hidden d inf n skip (S i) c) as [r|] eqn:E2; cbn [bind]; [|discriminate].
    intros Q. assert (ls = l :: r) as -> by congruence. destruct (IH _ _ E2) as [L A].
    apply nerf_layer_shape in E. split; [cbn; lia|]. intros l' [<-|I]; [tauto|exact (A l' I)].
Qed.

Lemma nerf_value d inz outz nz hz net : nerf_new d inz outz nz hz NERF_SKIP = Ok net ->
  (exists body last, net = body ++ [(last, sigmoid)] /\ length body = S (Z.to_nat hz)
     /\ (forall l, In l body -> snd l = relu /\ l_out (fst l) = Z.to_nat nz) /\ l_out last = Z.to_nat outz)
  /\ forall row out, nerf_forward NERF_SKIP net row = Ok out ->
       out = if (length net <=? 4)%nat then signal net row
             else signal (skipn 5 net) (signal (firstn 5 net) row ++ row).
Proof.
  unfold nerf_new, dim. destruct (inz <? 0)%Z; cbn [bind]; [discriminate|]. destruct (nz <? 0)%Z; cbn [bind]; [discriminate|].
  destruct (nerf_layer d 0 _ _ relu) as [first|] eqn:E1; cbn [bind]; [|discriminate].
  destruct (nerf_hidden d _ _ _ 0 _) as [hidden|] eqn:E2; cbn [bind]; [|discriminate].
  destruct (outz <? 0)%Z; cbn [bind]; [discriminate|].
  destruct (nerf_layer d _ _ _ sigmoid) as [[ll lf]|] eqn:E3; cbn [bind]; [|discriminate].
  intros Q. assert (net = first :: hidden ++ [(ll, lf)]) as -> by congruence. split.
  - apply nerf_layer_shape in E1. apply nerf_hidden_acts in E2. apply nerf_layer_shape in E3. cbn [fst snd] in E3.
    exists (first :: hidden), ll. destruct E3 as (-> & _ & E3). destruct E2 as [L2 A2]. repeat split.
    + cbn. lia.
    + destruct H as [<-|H]; [tauto|exact (proj1 (A2 _ H))].
    + destruct H as [<-|H]; [tauto|exact (proj2 (A2 _ H))].
    + exact E3.
  - intros row out. cbn [nerf_forward]. destruct first as [fl ff]. destruct (apply_layer (fl, ff) row) as [o|] eqn:E; cbn [bind]; [|discriminate].
    apply layer_value in E. subst o. intros P. apply nerf_loop_before in P; [|lia].
    cbn [firstn skipn signal length]. rewrite P. reflexivity.
Qed.

(** SIREN *)
Lemma siren_sines ls om tail row out :
  siren_forward (map (fun l => SineLayer l om) ls ++ tail) row = Ok out ->
  siren_forward tail (signal (map (fun l => (l, fun v => sin (om * v))) ls) row) = Ok out.
Proof.
  revert row. induction ls as [|l ls IH]; intros row; cbn [map app siren_forward signal apply_module]; [exact (fun x => x)|].
  destruct (apply_linear l row) as [o|] eqn:E; cbn [bind]; [|discriminate].
  apply linear_value in E. subst o. rewrite map_map. exact (IH _).
Qed.
Lemma sine_shape d k n m b om l : sine_layer d k n m b om = Ok l -> exists li, l = SineLayer li om /\ l_in li = n /\ l_out li = m.
Proof.
  unfold sine_layer. destruct (if b then _ else _) as [w|]; cbn [bind]; [|discriminate].
  intros Q. assert (Q' := f_equal (fun x => match x with Ok l => l | Err _ => l end) Q). cbn in Q'.
  eexists. split; [symmetry; exact Q'|]. auto.
Qed.
Lemma siren_hidden_shape d n om k count ls : siren_hidden d n om k count = Ok ls ->
  exists hs, ls = map (fun l => SineLayer l om) hs /\ length hs = count /\ forall l, In l hs -> l_in l = n /\ l_out l = n.
Proof.
  revert k ls. induction count as [|c IH]; intros k ls; cbn [siren_hidden].
  - intros Q. assert (ls = []) as -> by congruence. exists []. repeat split; contradiction.
  - destruct (sine_layer d k n n false om) as [l|] eqn:E; cbn [bind]; [|discriminate].
    destruct (siren_hidden d n om (S k) c) as [r|] eqn:E2; cbn [bind]; [|discriminate].
    intros Q. assert (ls = l :: r) as -> by congruence. destruct (IH _ _ E2) as (hs & -> & L & A).
    apply sine_shape in E. destruct E as (li & -> & S1 & S2). exists (li :: hs). split; [reflexivity|]. split; [cbn; lia|].
    intros l' [<-|I]; [auto|exact (A l' I)].
Qed.
Lemma siren_value d inz nz hz outz om1 om2 net : siren_new d inz nz hz outz om1 om2 = Ok net ->
  exists first hidden last,
    net = SineLayer first om1 :: map (fun l => SineLayer l om2) hidden ++ [LinearLayer last; SigmoidLayer]
    /\ length hidden = Z.to_nat hz
    /\ l_out first = Z.to_nat nz /\ (forall l, In l hidden -> l_out l = Z.to_nat nz) /\ l_out last = Z.to_nat outz
    /\ forall row out, siren_forward net row = Ok out ->
         out = signal ((first, fun v => sin (om1 * v)) :: map (fun l => (l, fun v => sin (om2 * v))) hidden ++ [(last, sigmoid)]) row.
Proof.
  unfold siren_new, dim. destruct (inz <? 0)%Z; cbn [bind]; [discriminate|]. destruct (nz <? 0)%Z; cbn [bind]; [discriminate|].
  destruct (sine_layer d 0 _ _ true om1) as [first|] eqn:E1; cbn [bind]; [|discriminate].
  destruct (siren_hidden d _ _ _ _) as [hidden|] eqn:E2; cbn [bind]; [|discriminate].
  destruct (outz <? 0)%Z; cbn [bind]; [discriminate|].
  destruct (scaled_weights _ _ _) as [w|]; cbn [bind]; [|discriminate].
  apply sine_shape in E1. destruct E1 as (fl & -> & F1 & F2). apply siren_hidden_shape in E2. destruct E2 as (hs & -> & L & A).
  set (ll := mkLinear _ _ w _). intros Q. assert (Q' := f_equal (fun x => match x with Ok l => l | Err _ => [] end) Q). cbn beta iota in Q'.
  exists fl, hs, ll. rewrite <- Q'. split; [reflexivity|]. split; [exact L|]. split; [exact F2|]. split; [intros l I; exact (proj2 (A l I))|].
  split; [reflexivity|]. intros row out. cbn [siren_forward apply_module].
  destruct (apply_linear fl row) as [o|] eqn:E; cbn [bind]; [|discriminate]. apply linear_value in E. subst o. rewrite map_map.
  intros P. apply siren_sines in P. cbn [siren_forward apply_module] in P.
  destruct (apply_linear ll _) as [o|] eqn:E; cbn [bind] in P; [|discriminate]. apply linear_value in E. subst o.
  assert (P' := f_equal (fun x => match x with Ok l => l | Err _ => [] end) P). cbn beta iota in P'. rewrite <- P', map_map.
  assert (SA : forall a b x, signal (a ++ b) x = signal b (signal a x)).
  { intros a. induction a as [|[l f] a IH]; intros b x; cbn [app signal]; [reflexivity|apply IH]. }
  cbn [signal]. rewrite SA. cbn [signal]. reflexivity.
Qed.
