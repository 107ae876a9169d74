(** Shapes and ranges of the networks. *)
From Coq Require Import Reals ZArith String List Bool Lra Lia Psatz.
From Verif Require Import Base BaseLemmas Cplx Model_EpsGrid Model_Networks.
Import ListNotations.
Open Scope R_scope.

Lemma sigmoid_range x : 0 < sigmoid x < 1.
Proof.
  unfold sigmoid. pose proof (exp_pos (- x)) as P. split.
  - apply Rinv_0_lt_compat. lra.
  - apply (Rmult_lt_reg_r (1 + exp (- x))); [lra|]. rewrite Rinv_l by lra. lra.
Qed.

Lemma apply_linear_ok l row : length row = l_in l -> exists out, apply_linear l row = Ok out /\ length out = l_out l.
Proof.
  intros H. unfold apply_linear. rewrite H, Nat.eqb_refl. eexists. split; [reflexivity|]. rewrite map_length, seq_length. reflexivity.
Qed.
Lemma apply_linear_bad l row : length row <> l_in l -> apply_linear l row = Err RuntimeError.
Proof. intros H. unfold apply_linear. rewrite (proj2 (Nat.eqb_neq _ _) H). reflexivity. Qed.

Lemma apply_layer_ok l row : length row = l_in (fst l) ->
  exists out, apply_layer l row = Ok (map (snd l) out) /\ length out = l_out (fst l).
Proof.
  intros H. destruct (apply_linear_ok _ _ H) as [out [E L]]. exists out. unfold apply_layer. rewrite E. auto.
Qed.

Lemma dim_pos z : (0 <= z)%Z -> dim z = Ok (Z.to_nat z).
Proof. intros H. unfold dim. destruct (Z.ltb_spec z 0); [lia|reflexivity]. Qed.
Lemma dim_ok z n : dim z = Ok n -> (0 <= z)%Z /\ n = Z.to_nat z.
Proof. unfold dim. destruct (Z.ltb_spec z 0); [discriminate|]. intros [= <-]. auto. Qed.

Lemma uniform_ok b u : 0 <= b -> uniform_ b u = Ok (fun i j => - b + 2 * b * u i j).
Proof. intros H. unfold uniform_. destruct (Rlt_dec b 0); [lra|reflexivity]. Qed.
Lemma uniform_bad b u : b < 0 -> uniform_ b u = Err RuntimeError.
Proof. intros H. unfold uniform_. destruct (Rlt_dec b 0); [reflexivity|contradiction]. Qed.

(** * NERF *)
Lemma nerf_layer_ok d k n m act : (0 < n + m)%nat -> exists w,
  nerf_layer d k n m act = Ok (mkLinear n m w (fun _ => 0), act).
Proof.
  intros H. unfold nerf_layer. rewrite (proj2 (Nat.eqb_neq _ _)) by lia.
  rewrite uniform_ok by apply sqrt_pos. eexists. reflexivity.
Qed.

Lemma nerf_hidden_ok d inf n skip count : forall i, (0 < n)%nat -> exists hs, nerf_hidden d inf n skip i count = Ok hs.
Proof.
  induction count as [|c IH]; intros i Hn; cbn [nerf_hidden]; [eauto|].
  destruct (nerf_layer_ok d (S i) (if existsb (Nat.eqb i) skip then n + inf else n) n relu) as [w E]; [lia|].
  rewrite E. cbn [bind]. destruct (IH (S i) Hn) as [hs E']. rewrite E'. cbn [bind]. eauto.
Qed.

Lemma in4 i : existsb (Nat.eqb i) NERF_SKIP = Nat.eqb i 4.
Proof. cbn. apply orb_false_r. Qed.

(** Width of what enters hidden layer [i]. *)
Definition width (inf n i : nat) : nat := (n + if Nat.eqb i 4 then inf else 0)%nat.

Lemma nerf_hidden_run d inf n ident count : length ident = inf ->
  forall i hs out, nerf_hidden d inf n NERF_SKIP i count = Ok hs -> length out = width inf n i ->
  exists out', length out' = width inf n (i + count)
    /\ forall rest, nerf_loop NERF_SKIP (S i) (hs ++ rest) ident out = nerf_loop NERF_SKIP (S (i + count)) rest ident out'.
Proof.
  intros Hid. induction count as [|c IH]; intros i hs out; cbn [nerf_hidden].
  - intros [= <-] L. exists out. rewrite Nat.add_0_r. auto.
  - rewrite in4. intros H L. apply bind_ok in H. destruct H as [l [Hl H]]. apply bind_ok in H. destruct H as [r [Hr H]].
    injection H as <-.
    assert (Hin : l_in (fst l) = width inf n i /\ l_out (fst l) = n).
    { unfold nerf_layer in Hl. destruct (Nat.eqb _ 0) in Hl; [discriminate|]. apply bind_ok in Hl.
      destruct Hl as [w [_ Hl]]. injection Hl as <-. cbn. split; [|reflexivity]. unfold width. destruct (Nat.eqb i 4); lia. }
    destruct Hin as [Hin Hout].
    destruct (apply_layer_ok l out) as [o [E Lo]]; [congruence|].
    set (out1 := if Nat.eqb (S i) 4 then map (snd l) o ++ ident else map (snd l) o).
    destruct (IH (S i) r out1 Hr) as [out' [L' Hrun]].
    { unfold out1, width. destruct (Nat.eqb (S i) 4); rewrite ?app_length, map_length; lia. }
    exists out'. rewrite Nat.add_succ_r. split; [exact L'|]. intros rest. cbn [nerf_loop app]. rewrite E. cbn [bind].
    rewrite in4. apply Hrun.
Qed.

Lemma nerf_built d inz outz nz hz : (0 <= inz)%Z -> (0 <= outz)%Z -> (0 < nz)%Z ->
  exists net, nerf_new d inz outz nz hz NERF_SKIP = Ok net.
Proof.
  intros Hi Ho Hn. unfold nerf_new. rewrite !dim_pos by lia. cbn [bind].
  destruct (nerf_layer_ok d 0 (Z.to_nat inz) (Z.to_nat nz) relu) as [w ->]; [lia|]. cbn [bind].
  destruct (nerf_hidden_ok d (Z.to_nat inz) (Z.to_nat nz) NERF_SKIP (Z.to_nat hz) 0) as [hs ->]; [lia|]. cbn [bind].
  destruct (nerf_layer_ok d (S (Z.to_nat hz)) (Z.to_nat nz) (Z.to_nat outz) sigmoid) as [w' ->]; [lia|]. cbn [bind]. eauto.
Qed.

(** What a built NERF computes: everything up to the last layer, then that layer. *)
Lemma nerf_run d inz outz nz hz net row : (0 < nz)%Z -> nerf_new d inz outz nz hz NERF_SKIP = Ok net ->
  length row = Z.to_nat inz ->
  exists last out, l_in last = Z.to_nat nz /\ l_out last = Z.to_nat outz
    /\ length out = width (Z.to_nat inz) (Z.to_nat nz) (Z.to_nat hz)
    /\ nerf_forward NERF_SKIP net row = nerf_loop NERF_SKIP (S (Z.to_nat hz)) [(last, sigmoid)] row out.
Proof.
  intros Hn H L. unfold nerf_new in H.
  apply bind_ok in H. destruct H as [inf [Hi H]]. apply dim_ok in Hi. destruct Hi as [Hi ->].
  apply bind_ok in H. destruct H as [n [Hn' H]]. apply dim_ok in Hn'. destruct Hn' as [_ ->].
  apply bind_ok in H. destruct H as [first [Hf H]]. apply bind_ok in H. destruct H as [hs [Hh H]].
  apply bind_ok in H. destruct H as [outn [Ho H]]. apply dim_ok in Ho. destruct Ho as [_ ->].
  apply bind_ok in H. destruct H as [last [Hl H]]. injection H as <-.
  destruct (nerf_layer_ok d 0 (Z.to_nat inz) (Z.to_nat nz) relu) as [w Ef]; [lia|]. rewrite Ef in Hf. injection Hf as <-.
  destruct (nerf_layer_ok d (S (Z.to_nat hz)) (Z.to_nat nz) (Z.to_nat outz) sigmoid) as [w' El]; [lia|]. rewrite El in Hl. injection Hl as <-.
  destruct (apply_layer_ok (mkLinear (Z.to_nat inz) (Z.to_nat nz) w (fun _ => 0), relu) row L) as [o [E Lo]].
  cbn [fst snd l_out] in Lo, E.
  destruct (nerf_hidden_run d (Z.to_nat inz) (Z.to_nat nz) row (Z.to_nat hz) L 0 hs (map relu o) Hh) as [out' [L' Hrun]].
  { rewrite map_length, Lo. unfold width. cbn. lia. }
  exists (mkLinear (Z.to_nat nz) (Z.to_nat outz) w' (fun _ => 0)), out'. cbn [l_in l_out]. cbn [plus] in L', Hrun.
  split; [reflexivity|]. split; [reflexivity|]. split; [exact L'|].
  cbn [nerf_forward]. rewrite E. cbn [bind]. apply Hrun.
Qed.

Lemma nerf_good d inz outz nz hz net row : (0 < nz)%Z -> nerf_new d inz outz nz hz NERF_SKIP = Ok net ->
  length row = Z.to_nat inz -> hz <> 3%Z -> hz <> 4%Z ->
  exists out, nerf_forward NERF_SKIP net row = Ok out /\ length out = Z.to_nat outz /\ Forall (fun v => 0 < v < 1) out.
Proof.
  intros Hn H L N3 N4. destruct (nerf_run _ _ _ _ _ _ _ Hn H L) as [last [o [Hi [Ho [Lo E]]]]].
  rewrite E. cbn [nerf_loop].
  destruct (apply_layer_ok (last, sigmoid) o) as [z [Ez Lz]].
  { cbn [fst]. rewrite Hi, Lo. unfold width. destruct (Nat.eqb_spec (Z.to_nat hz) 4); lia. }
  rewrite Ez. cbn [bind snd fst] in *. rewrite in4. destruct (Nat.eqb_spec (S (Z.to_nat hz)) 4); [lia|].
  eexists. split; [reflexivity|]. rewrite map_length. split; [congruence|].
  apply Forall_forall. intros v Hv. apply in_map_iff in Hv. destruct Hv as [x [<- _]]. apply sigmoid_range.
Qed.

Lemma nerf_three d inz outz nz net row : (0 < nz)%Z -> nerf_new d inz outz nz 3 NERF_SKIP = Ok net ->
  length row = Z.to_nat inz ->
  exists out, nerf_forward NERF_SKIP net row = Ok (out ++ row)%list /\ length out = Z.to_nat outz /\ Forall (fun v => 0 < v < 1) out.
Proof.
  intros Hn H L. destruct (nerf_run _ _ _ _ _ _ _ Hn H L) as [last [o [Hi [Ho [Lo E]]]]].
  rewrite E. cbn [nerf_loop].
  destruct (apply_layer_ok (last, sigmoid) o) as [z [Ez Lz]].
  { cbn [fst]. rewrite Hi, Lo. unfold width. change (Z.to_nat 3) with 3%nat. cbn. lia. }
  rewrite Ez. cbn [bind snd fst] in *. change (Z.to_nat 3) with 3%nat. cbn.
  eexists. split; [reflexivity|]. rewrite map_length. split; [congruence|].
  apply Forall_forall. intros v Hv. apply in_map_iff in Hv. destruct Hv as [x [<- _]]. apply sigmoid_range.
Qed.

Lemma nerf_four d inz outz nz net row : (0 < nz)%Z -> (0 < inz)%Z -> nerf_new d inz outz nz 4 NERF_SKIP = Ok net ->
  nerf_forward NERF_SKIP net row = Err RuntimeError.
Proof.
  intros Hn Hi0 H. destruct (Nat.eq_dec (length row) (Z.to_nat inz)) as [L|L].
  - destruct (nerf_run _ _ _ _ _ _ _ Hn H L) as [last [o [Hi [Ho [Lo E]]]]].
    rewrite E. cbn [nerf_loop]. unfold apply_layer. cbn [fst]. rewrite apply_linear_bad; [reflexivity|].
    rewrite Hi, Lo. unfold width. change (Z.to_nat 4) with 4%nat. cbn. lia.
  - unfold nerf_new in H.
    apply bind_ok in H. destruct H as [inf [Hi H]]. apply dim_ok in Hi. destruct Hi as [Hi ->].
    apply bind_ok in H. destruct H as [n [Hn' H]]. apply bind_ok in H. destruct H as [first [Hf H]].
    apply bind_ok in H. destruct H as [hs [_ H]]. apply bind_ok in H. destruct H as [outn [_ H]].
    apply bind_ok in H. destruct H as [last [_ H]]. injection H as <-.
    unfold nerf_layer in Hf. destruct (Nat.eqb _ 0) in Hf; [discriminate|]. apply bind_ok in Hf. destruct Hf as [w [_ Hf]]. injection Hf as <-.
    cbn [nerf_forward]. unfold apply_layer. cbn [fst]. rewrite apply_linear_bad by exact L. reflexivity.
Qed.

Lemma nerf_wrong_input d inz outz nz hz net row : nerf_new d inz outz nz hz NERF_SKIP = Ok net ->
  length row <> Z.to_nat inz -> nerf_forward NERF_SKIP net row = Err RuntimeError.
Proof.
  intros H L. unfold nerf_new in H.
  apply bind_ok in H. destruct H as [inf [Hi H]]. apply dim_ok in Hi. destruct Hi as [Hi ->].
  apply bind_ok in H. destruct H as [n [Hn' H]]. apply bind_ok in H. destruct H as [first [Hf H]].
  apply bind_ok in H. destruct H as [hs [_ H]]. apply bind_ok in H. destruct H as [outn [_ H]].
  apply bind_ok in H. destruct H as [last [_ H]]. injection H as <-.
  unfold nerf_layer in Hf. destruct (Nat.eqb _ 0) in Hf; [discriminate|]. apply bind_ok in Hf. destruct Hf as [w [_ Hf]]. injection Hf as <-.
  cbn [nerf_forward]. unfold apply_layer. cbn [fst]. rewrite apply_linear_bad by exact L. reflexivity.
Qed.

(** * SIREN *)
Lemma INR_pos n : n <> 0%nat -> 0 < INR n.
Proof. intros H. apply lt_0_INR. lia. Qed.

Lemma scaled_ok n om u : n <> 0%nat -> 0 < om ->
  scaled_weights n om u = Ok (fun i j => - (sqrt (6 / INR n) / om) + 2 * (sqrt (6 / INR n) / om) * u i j).
Proof.
  intros Hn Ho. unfold scaled_weights. rewrite (proj2 (Nat.eqb_neq _ _) Hn).
  destruct (Req_EM_T om 0); [lra|]. apply uniform_ok. apply Rmult_le_pos; [apply sqrt_pos|]. left. apply Rinv_0_lt_compat, Ho.
Qed.
Lemma scaled_bad n om u : n <> 0%nat -> om <= 0 -> scaled_weights n om u = Err RuntimeError.
Proof.
  intros Hn Ho. unfold scaled_weights. rewrite (proj2 (Nat.eqb_neq _ _) Hn).
  destruct (Req_EM_T om 0); [reflexivity|]. apply uniform_bad.
  pose proof (INR_pos n Hn). assert (0 < sqrt (6 / INR n)) by (apply sqrt_lt_R0, Rdiv_lt_0_compat; lra).
  assert (/ om < 0) by (apply Rinv_lt_0_compat; lra). unfold Rdiv. nra.
Qed.

(** A chain of modules mapping rows of [n] numbers to rows of [m] numbers. *)
Definition maps (n m : nat) (net : list sequential_module) : Prop :=
  forall row, length row = n -> exists out, siren_forward net row = Ok out /\ length out = m.

Lemma siren_app a b row : siren_forward (a ++ b) row = let! out := siren_forward a row in siren_forward b out.
Proof.
  revert row. induction a as [|m a IH]; intros row; cbn [app siren_forward]; [reflexivity|].
  destruct (apply_module m row); cbn [bind]; [apply IH|reflexivity].
Qed.

Lemma siren_hidden_ok d n om count : forall k, n <> 0%nat -> 0 < om ->
  exists hs, siren_hidden d n om k count = Ok hs /\ maps n n hs.
Proof.
  induction count as [|c IH]; intros k Hn Ho; cbn [siren_hidden].
  - exists []. split; [reflexivity|]. intros row L. exists row. auto.
  - unfold sine_layer. rewrite scaled_ok by assumption. cbn [bind].
    destruct (IH (S k) Hn Ho) as [hs [-> M]]. cbn [bind]. eexists. split; [reflexivity|].
    intros row L. cbn [siren_forward apply_module].
    match goal with |- context [apply_linear ?l row] => destruct (apply_linear_ok l row L) as [o [-> Lo]] end.
    cbn [bind]. apply M. rewrite map_length. exact Lo.
Qed.

Lemma siren_first d n m om : n <> 0%nat -> exists w,
  sine_layer d 0 n m true om = Ok (SineLayer (mkLinear n m w (default_bias n (d_bias d 0))) om).
Proof.
  intros Hn. unfold sine_layer. rewrite (proj2 (Nat.eqb_neq _ _) Hn). rewrite uniform_ok.
  - cbn [bind]. eauto.
  - pose proof (INR_pos n Hn). left. apply Rdiv_lt_0_compat; lra.
Qed.

Lemma siren_built d inz nz hz outz om : (0 < inz)%Z -> (0 < nz)%Z -> (0 <= outz)%Z -> 0 < om ->
  exists net, siren_new d inz nz hz outz om om = Ok net
    /\ forall row, length row = Z.to_nat inz ->
         exists out, siren_forward net row = Ok out /\ length out = Z.to_nat outz /\ Forall (fun v => 0 < v < 1) out.
Proof.
  intros Hi Hn Ho Hom. unfold siren_new. rewrite !dim_pos by lia. cbn [bind].
  destruct (siren_first d (Z.to_nat inz) (Z.to_nat nz) om) as [w ->]; [lia|]. cbn [bind].
  destruct (siren_hidden_ok d (Z.to_nat nz) om (Z.to_nat hz) 1) as [hs [-> M]]; [lia|exact Hom|]. cbn [bind].
  rewrite scaled_ok by (assumption || lia). cbn [bind]. eexists. split; [reflexivity|].
  intros row L. cbn [siren_forward apply_module].
  match goal with |- context [apply_linear ?l row] => destruct (apply_linear_ok l row L) as [o [-> Lo]] end.
  cbn [bind]. rewrite siren_app.
  destruct (M (map (fun v => sin (om * v)) o)) as [o2 [-> L2]]; [rewrite map_length; exact Lo|]. cbn [bind siren_forward apply_module].
  match goal with |- context [apply_linear ?l o2] => destruct (apply_linear_ok l o2 L2) as [o3 [-> L3]] end.
  cbn [bind siren_forward]. eexists. split; [reflexivity|]. rewrite map_length. split; [exact L3|].
  apply Forall_forall. intros v Hv. apply in_map_iff in Hv. destruct Hv as [x [<- _]]. apply sigmoid_range.
Qed.

Lemma siren_omega d inz nz hz outz om : (0 < inz)%Z -> (0 < nz)%Z -> (0 <= outz)%Z -> om <= 0 ->
  siren_new d inz nz hz outz om om = Err RuntimeError.
Proof.
  intros Hi Hn Ho Hom. unfold siren_new. rewrite !dim_pos by lia. cbn [bind].
  destruct (siren_first d (Z.to_nat inz) (Z.to_nat nz) om) as [w ->]; [lia|]. cbn [bind].
  destruct (Z.to_nat hz) as [|h]; cbn [siren_hidden].
  - cbn [bind]. rewrite scaled_bad by (assumption || lia). reflexivity.
  - unfold sine_layer. rewrite scaled_bad by (assumption || lia). reflexivity.
Qed.

Lemma siren_wrong_input d inz nz hz outz om1 om2 net row : siren_new d inz nz hz outz om1 om2 = Ok net ->
  length row <> Z.to_nat inz -> siren_forward net row = Err RuntimeError.
Proof.
  intros H L. unfold siren_new in H.
  apply bind_ok in H. destruct H as [inf [Hi H]]. apply dim_ok in Hi. destruct Hi as [Hi ->].
  apply bind_ok in H. destruct H as [n [Hn' H]]. apply bind_ok in H. destruct H as [first [Hf H]].
  apply bind_ok in H. destruct H as [hs [_ H]]. apply bind_ok in H. destruct H as [outn [_ H]].
  apply bind_ok in H. destruct H as [last [_ H]]. injection H as <-.
  unfold sine_layer in Hf. apply bind_ok in Hf. destruct Hf as [w [_ Hf]]. injection Hf as <-.
  cbn [siren_forward apply_module]. rewrite apply_linear_bad by exact L. reflexivity.
Qed.
