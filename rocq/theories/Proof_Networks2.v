(** The networks inside model_to_eps_grid; initial weights; voxel models. *)
From Coq Require Import Reals ZArith String List Bool Lra Lia Psatz.
From Verif Require Import Base BaseLemmas Cplx Model_EpsGrid Spec_EpsGrid Proof_EpsGrid Model_Networks Spec_Networks Proof_Networks.
Import ListNotations.
Open Scope R_scope.
Open Scope string_scope.

Lemma mmap_ok {A B} (f : A -> res B) (P : B -> Prop) l :
  (forall x, In x l -> exists y, f x = Ok y /\ P y) ->
  exists ys, mmap f l = Ok ys /\ length ys = length l /\ Forall P ys.
Proof.
  induction l as [|x l IH]; intros H; cbn [mmap]; [exists []; auto|].
  destruct (H x) as [y [-> Py]]; [cbn; auto|]. cbn [bind].
  destruct IH as [ys [-> [L F]]]; [intros z Hz; apply H; cbn; auto|]. cbn [bind].
  exists (y :: ys). cbn. auto.
Qed.
Lemma mmap_err {A B} (f : A -> res B) l e : l <> [] -> (forall x, In x l -> f x = Err e) -> mmap f l = Err e.
Proof. destruct l as [|x l]; intros H F; [congruence|]. cbn. rewrite F; [reflexivity|cbn; auto]. Qed.

(** The sample points all have four coordinates. *)
Lemma sample_points cfg net : sampling_ok cfg ->
  e_model_type cfg = "nerf" \/ e_model_type cfg = "siren" ->
  exists points, eval_model cfg net = Ok (Rows (net_rows net points))
    /\ eval_model cfg {| net_rows := fun rows => rows; net_voxel := [] |} = Ok (Rows points)
    /\ length points = ((e_Nx cfg / e_os cfg) * (e_Ny cfg / e_os cfg) * e_N_layers cfg * e_N_freq cfg)%nat
    /\ points <> [] /\ forall p, In p points -> length p = 4%nat.
Proof.
  intros (Hd & Hf & Hl & HL & Ht & Hp & Ho & Ho') Hm.
  assert (Em : (String.eqb (e_model_type cfg) "nerf" || String.eqb (e_model_type cfg) "siren") = true).
  { destruct Hm as [->| ->]; reflexivity. }
  destruct (eval_model_inputs cfg {| net_rows := fun rows => rows; net_voxel := [] |} Hm Hd Hf Hl HL Ht Hp) as [pts [E [L _]]].
  cbn [net_rows] in E. exists pts.
  assert (P4 : forall p, In p pts -> length p = 4%nat).
  { unfold eval_model in E. rewrite Em in E. destruct (get_transformed_grid _ _ _ _) as [[x y] z].
    apply bind_ok in E. destruct E as [fr [_ E]]. cbn [net_rows] in E. injection E as <-. intros p Hp4.
    unfold nn_inputs in Hp4. apply in_flat_map in Hp4. destruct Hp4 as [a [_ Hp4]]. apply in_flat_map in Hp4. destruct Hp4 as [b [_ Hp4]].
    apply in_flat_map in Hp4. destruct Hp4 as [c [_ Hp4]]. apply in_map_iff in Hp4. destruct Hp4 as [f [<- _]]. reflexivity. }
  split; [|split; [exact E|split; [exact L|split; [|exact P4]]]].
  - unfold eval_model in *. rewrite Em in *. destruct (get_transformed_grid _ _ _ _) as [[x y] z].
    apply bind_ok in E. destruct E as [fr [Ef E]]. rewrite Ef. cbn [bind]. cbn [net_rows] in E. injection E as <-. reflexivity.
  - intros ->. cbn in L. symmetry in L. apply Nat.eq_mul_0 in L.
    assert (0 < e_Nx cfg / e_os cfg)%nat by (apply Nat.div_str_pos; lia).
    assert (0 < e_Ny cfg / e_os cfg)%nat by (apply Nat.div_str_pos; lia). nia.
Qed.

Definition unit_row (k : nat) (r : list R) : Prop := length r = k /\ Forall (fun v => 0 < v < 1) r.

Lemma network_rows d c cfg : same_run c cfg -> sampling_ok cfg -> works c ->
  exists m net rows, init_network d c = Ok m /\ with_model cfg m = Ok net
    /\ eval_model cfg net = Ok (Rows rows)
    /\ rows_ok cfg (Z.to_nat (c_out_features c)) rows
    /\ forall r, In r rows -> Forall (fun v => 0 < v < 1) r.
Proof.
  intros (E1 & _ & _ & _ & _ & _ & _ & _ & _ & _ & Eo) S (He & Hn & Hw).
  assert (Ho : (0 <= c_out_features c)%Z) by (rewrite Eo; destruct (String.eqb _ _); lia).
  assert (Hm : e_model_type cfg = "nerf" \/ e_model_type cfg = "siren").
  { rewrite <- E1. destruct Hw as [[H _]|[H _]]; auto. }
  assert (M : exists m, init_network d c = Ok m /\ (forall row, length row = 4%nat -> exists out,
     (match m with Nerf n => nerf_forward NERF_SKIP n | Siren n => siren_forward n | Voxel _ => fun _ => Err TypeError end) row = Ok out
     /\ unit_row (Z.to_nat (c_out_features c)) out) /\ forall w, m <> Voxel w).
  { destruct Hw as [[Ht Hom]|[Ht [N3 N4]]]; unfold init_network; rewrite Ht; cbn [String.eqb Ascii.eqb Bool.eqb].
    - destruct (siren_built d (c_encoding_dim c) (c_n_neurons c) (c_hidden_layers c) (c_out_features c) (c_siren_omega c)) as [net [En Hf]]; try lia; [exact Hom|].
      change (String.eqb "siren" "nerf") with false. change (String.eqb "siren" "siren") with true. cbn iota.
      rewrite En. cbn [bind]. eexists. split; [reflexivity|]. split; [|discriminate].
      intros row L. apply Hf. rewrite He. exact L.
    - change (String.eqb "nerf" "nerf") with true. cbn iota.
      destruct (nerf_built d (c_encoding_dim c) (c_out_features c) (c_n_neurons c) (c_hidden_layers c)) as [net En]; try lia.
      rewrite En. cbn [bind]. eexists. split; [reflexivity|]. split; [|discriminate].
      intros row L. destruct (nerf_good _ _ _ _ _ _ row Hn En) as [out H]; [rewrite He; exact L|exact N3|exact N4|]. exists out. exact H. }
  destruct M as [m [Em [Hf NV]]].
  destruct (sample_points cfg {| net_rows := fun rows => rows; net_voxel := [] |} S Hm) as [pts [_ [E [L [_ P4]]]]].
  assert (R : exists rows, run_model m pts = Ok rows /\ length rows = length pts /\ Forall (unit_row (Z.to_nat (c_out_features c))) rows).
  { unfold run_model. destruct m as [n|n|w]; [| |exfalso; exact (NV w eq_refl)]; apply mmap_ok; intros x Hx; apply Hf, P4, Hx. }
  destruct R as [rows [Er [Lr Fr]]]. rewrite Forall_forall in Fr.
  exists m, {| net_rows := fun _ => rows; net_voxel := [] |}, rows.
  split; [exact Em|]. split; [unfold with_model; rewrite E; cbn [bind]; rewrite Er; reflexivity|].
  split; [|split].
  - destruct (sample_points cfg {| net_rows := fun _ => rows; net_voxel := [] |} S Hm) as [pts' [E' _]]. exact E'.
  - split; [congruence|]. intros r Hr. exact (proj1 (Fr r Hr)).
  - intros r Hr. exact (proj2 (Fr r Hr)).
Qed.

Lemma network_regression d c cfg nre nim : same_run c cfg -> sampling_ok cfg -> os_ok cfg -> works c ->
  e_type cfg = "regression" ->
  exists m net g, init_network d c = Ok m /\ with_model cfg m = Ok net /\ regression_grid cfg net nre nim = Ok g
    /\ shape4 g (e_Nx cfg) (e_Ny cfg) (e_N_layers cfg) (e_N_freq cfg).
Proof.
  intros Sr S O W T. destruct (network_rows d c cfg Sr S W) as [m [net [rows [E1 [E2 [E3 [E4 _]]]]]]].
  assert (Eo : c_out_features c = 2%Z).
  { destruct Sr as (_ & _ & _ & _ & _ & _ & _ & _ & _ & _ & Eo). rewrite Eo, T. reflexivity. }
  rewrite Eo in E4. destruct (regression_shape cfg net nre nim rows O E3 E4) as [g [Eg Hg]].
  exists m, net, g. auto.
Qed.

(** Any other encoding dimension than 4, and NERF with 4 hidden layers: the
    model raises on the sample points. *)
Lemma network_fails d c cfg m : same_run c cfg -> sampling_ok cfg -> (0 < c_n_neurons c)%Z ->
  c_model_type c = "siren" /\ c_encoding_dim c <> 4%Z
  \/ c_model_type c = "nerf" /\ (c_encoding_dim c <> 4%Z \/ c_hidden_layers c = 4%Z) ->
  init_network d c = Ok m -> with_model cfg m = Err RuntimeError.
Proof.
  intros (E1 & _) S Hn H Em.
  assert (Hm : e_model_type cfg = "nerf" \/ e_model_type cfg = "siren").
  { rewrite <- E1. destruct H as [[H _]|[H _]]; auto. }
  destruct (sample_points cfg {| net_rows := fun rows => rows; net_voxel := [] |} S Hm) as [pts [_ [E [_ [NE P4]]]]].
  unfold with_model. rewrite E. cbn [bind].
  unfold init_network in Em. destruct H as [[Ht Hd]|[Ht Hd]]; rewrite Ht in Em.
  - change (String.eqb "siren" "nerf") with false in Em. change (String.eqb "siren" "siren") with true in Em. cbn iota in Em.
    apply bind_ok in Em. destruct Em as [n [En Em]]. injection Em as <-. unfold run_model.
    rewrite (mmap_err _ _ RuntimeError NE); [reflexivity|]. intros p Hp.
    assert (0 <= c_encoding_dim c)%Z.
    { unfold siren_new in En. apply bind_ok in En. destruct En as [i [Ei _]]. apply dim_ok in Ei. apply Ei. }
    apply (siren_wrong_input _ _ _ _ _ _ _ _ _ En). rewrite (P4 p Hp). lia.
  - change (String.eqb "nerf" "nerf") with true in Em. cbn iota in Em.
    apply bind_ok in Em. destruct Em as [n [En Em]]. injection Em as <-. unfold run_model.
    rewrite (mmap_err _ _ RuntimeError NE); [reflexivity|]. intros p Hp.
    assert (0 <= c_encoding_dim c)%Z.
    { unfold nerf_new in En. apply bind_ok in En. destruct En as [i [Ei _]]. apply dim_ok in Ei. apply Ei. }
    destruct (Z.eq_dec (c_encoding_dim c) 4) as [D|D].
    + destruct Hd as [Hd|Hd]; [contradiction|]. rewrite Hd in En. eapply nerf_four; [exact Hn| |exact En]. lia.
    + apply (nerf_wrong_input _ _ _ _ _ _ _ En). rewrite (P4 p Hp). lia.
Qed.

(** NERF with 3 hidden layers runs but the outputs do not fit the grid. *)
Lemma network_three d c cfg nre nim m : same_run c cfg -> sampling_ok cfg -> (0 < c_n_neurons c)%Z ->
  c_model_type c = "nerf" -> c_encoding_dim c = 4%Z -> c_hidden_layers c = 3%Z -> e_type cfg = "regression" ->
  init_network d c = Ok m ->
  exists net, with_model cfg m = Ok net /\ regression_grid cfg net nre nim = Err RuntimeError.
Proof.
  intros Sr S Hn Ht He Hh T Em.
  assert (Eo : c_out_features c = 2%Z).
  { destruct Sr as (_ & _ & _ & _ & _ & _ & _ & _ & _ & _ & Eo). rewrite Eo, T. reflexivity. }
  assert (Hm : e_model_type cfg = "nerf" \/ e_model_type cfg = "siren").
  { destruct Sr as (E1 & _). rewrite <- E1. auto. }
  destruct (sample_points cfg {| net_rows := fun rows => rows; net_voxel := [] |} S Hm) as [pts [_ [E [L [NE P4]]]]].
  unfold init_network in Em. rewrite Ht in Em. change (String.eqb "nerf" "nerf") with true in Em. cbn iota in Em.
  apply bind_ok in Em. destruct Em as [n [En Em]]. injection Em as <-.
  rewrite He, Eo, Hh in En.
  destruct (mmap_ok (nerf_forward NERF_SKIP n) (fun r => length r = 6%nat) pts) as [rows [Er [Lr Fr]]].
  { intros p Hp. destruct (nerf_three _ _ _ _ _ p Hn En) as [o [Eo' [Lo _]]]; [rewrite (P4 p Hp); reflexivity|].
    exists (o ++ p)%list. split; [exact Eo'|]. rewrite app_length, Lo, (P4 p Hp). reflexivity. }
  exists {| net_rows := fun _ => rows; net_voxel := [] |}.
  split; [unfold with_model, run_model; rewrite E; cbn [bind]; rewrite Er; reflexivity|].
  destruct (sample_points cfg {| net_rows := fun _ => rows; net_voxel := [] |} S Hm) as [pts' [E' _]]. cbn [net_rows] in E'.
  apply (regression_bad_count cfg _ nre nim rows E').
  rewrite Forall_forall in Fr. rewrite (concat_length_k rows 6) by exact Fr. rewrite Lr, L.
  assert (0 < length pts)%nat by (destruct pts; [congruence|cbn; lia]). rewrite L in H. nia.
Qed.

(** * Initial weights *)
Lemma uniform_bound b u w i j : uniform_ b u = Ok w -> 0 <= u i j < 1 -> - b <= w i j <= b.
Proof.
  unfold uniform_. destruct (Rlt_dec b 0); [discriminate|]. intros [= <-] H. nra.
Qed.

(** The weights of SIREN's layers. *)
Lemma siren_weights d inz nz hz outz om net : unit_draws d ->
  siren_new d inz nz hz outz om om = Ok net ->
  (exists l rest, net = SineLayer l om :: rest /\ forall i j, Rabs (l_w l i j) <= 1 / INR (Z.to_nat inz))
  /\ forall k l, (nth_error net (S k) = Some (SineLayer l om) \/ nth_error net (S k) = Some (LinearLayer l)) ->
       forall i j, Rabs (l_w l i j) <= sqrt (6 / INR (Z.to_nat nz)) / om.
Proof.
  intros (Dw & _) H. unfold siren_new in H.
  apply bind_ok in H. destruct H as [inf [Hi H]]. apply dim_ok in Hi. destruct Hi as [Hi ->].
  apply bind_ok in H. destruct H as [n [Hn' H]]. apply dim_ok in Hn'. destruct Hn' as [_ ->].
  apply bind_ok in H. destruct H as [first [Hf H]].
  apply bind_ok in H. destruct H as [hs [Hh H]]. apply bind_ok in H. destruct H as [outn [_ H]].
  apply bind_ok in H. destruct H as [w [Hw H]]. injection H as <-.
  assert (SW : forall k w', scaled_weights (Z.to_nat nz) om (d_weight d k) = Ok w' ->
     forall i j, Rabs (w' i j) <= sqrt (6 / INR (Z.to_nat nz)) / om).
  { intros k w' E i j. unfold scaled_weights in E. destruct (Nat.eqb _ 0); [discriminate|].
    destruct (Req_EM_T om 0); [discriminate|]. pose proof (uniform_bound _ _ _ i j E (Dw k i j)). apply Rabs_le. lra. }
  split.
  - unfold sine_layer in Hf. apply bind_ok in Hf. destruct Hf as [w0 [Hw0 Hf]]. injection Hf as <-.
    eexists. eexists. split; [reflexivity|]. intros i j. cbn [l_w].
    destruct (Nat.eqb _ 0); [discriminate|]. pose proof (uniform_bound _ _ _ i j Hw0 (Dw 0%nat i j)). apply Rabs_le. lra.
  - intros k l Hk. cbn [nth_error] in Hk.
    assert (Hid : forall count k0 hs', siren_hidden d (Z.to_nat nz) om k0 count = Ok hs' ->
       forall m, In m hs' -> exists l', m = SineLayer l' om /\ forall i j, Rabs (l_w l' i j) <= sqrt (6 / INR (Z.to_nat nz)) / om).
    { induction count as [|cnt IH]; intros k0 hs'; cbn [siren_hidden]; [intros [= <-] m []|].
      intros E m. apply bind_ok in E. destruct E as [l0 [El E]]. apply bind_ok in E. destruct E as [r [Er E]]. injection E as <-.
      intros [<-|Hm]; [|exact (IH _ _ Er m Hm)]. unfold sine_layer in El. apply bind_ok in El. destruct El as [w0 [Hw0 El]].
      injection El as <-. eexists. split; [reflexivity|]. cbn [l_w]. exact (SW _ _ Hw0). }
    destruct (Nat.lt_ge_cases k (length hs)) as [Hlt|Hge].
    + rewrite nth_error_app1 in Hk by exact Hlt.
      destruct Hk as [Hk|Hk]; apply nth_error_In in Hk; destruct (Hid _ _ _ Hh _ Hk) as [l' [El' B]]; [injection El' as ->; exact B|discriminate].
    + rewrite nth_error_app2 in Hk by exact Hge. remember (k - length hs)%nat as q. destruct q as [|[|q]]; cbn [nth_error] in Hk.
      * destruct Hk as [Hk|Hk]; [discriminate|]. injection Hk as <-. cbn [l_w]. exact (SW _ _ Hw).
      * destruct Hk as [Hk|Hk]; discriminate.
      * destruct Hk as [Hk|Hk]; destruct q; discriminate.
Qed.

(** * Voxel models *)
Lemma voxel_classification d c : c_model_type c = "voxel" -> c_type c <> "regression" ->
  init_network d c = Err AssertionError.
Proof.
  intros Hm Ht. unfold init_network. rewrite Hm.
  change (String.eqb "voxel" "nerf") with false. change (String.eqb "voxel" "siren") with false. change (String.eqb "voxel" "voxel") with true.
  cbn iota. unfold voxel_new. destruct (String.eqb_spec (c_type c) "regression"); [contradiction|]. reflexivity.
Qed.

Lemma voxel_regression d c : unit_draws d -> c_model_type c = "voxel" -> c_type c = "regression" ->
  c_rmin c <= c_rmax c -> c_imin c <= c_imax c ->
  exists w, init_network d c = Ok (Voxel w) /\ shape4 w (c_Nx c) (c_Ny c) (c_N_layers c) (c_N_freq c)
    /\ forall e, entry4 w e -> c_rmin c <= Re e <= c_rmax c /\ c_imin c <= Im e <= c_imax c.
Proof.
  intros (_ & _ & Dr & Di) Hm Ht Hr Hi. unfold init_network. rewrite Hm, Ht.
  change (String.eqb "voxel" "nerf") with false. change (String.eqb "voxel" "siren") with false. change (String.eqb "voxel" "voxel") with true.
  cbn iota. unfold voxel_new. change (negb (String.eqb "regression" "regression")) with false. cbn iota. cbn [bind].
  eexists. split; [reflexivity|]. split.
  - unfold shape4. rewrite map_length, seq_length. split; [reflexivity|]. intros a Ha. apply in_map_iff in Ha. destruct Ha as [x [<- _]].
    rewrite map_length, seq_length. split; [reflexivity|]. intros b Hb. apply in_map_iff in Hb. destruct Hb as [y [<- _]].
    rewrite map_length, seq_length. split; [reflexivity|]. intros e He. apply in_map_iff in He. destruct He as [z [<- _]].
    rewrite map_length, seq_length. reflexivity.
  - intros e (a & b & cc & Ha & Hb & Hc & He).
    apply in_map_iff in Ha. destruct Ha as [x [<- _]]. apply in_map_iff in Hb. destruct Hb as [y [<- _]].
    apply in_map_iff in Hc. destruct Hc as [l [<- _]]. apply in_map_iff in He. destruct He as [f [<- _]].
    cbn. specialize (Dr x y l f). specialize (Di x y l f). nra.
Qed.

Lemma unknown_model d c : c_model_type c <> "nerf" -> c_model_type c <> "siren" -> c_model_type c <> "voxel" ->
  init_network d c = Err NotImplementedError.
Proof.
  intros H1 H2 H3. unfold init_network.
  destruct (String.eqb_spec (c_model_type c) "nerf"); [contradiction|].
  destruct (String.eqb_spec (c_model_type c) "siren"); [contradiction|].
  destruct (String.eqb_spec (c_model_type c) "voxel"); [contradiction|]. reflexivity.
Qed.
