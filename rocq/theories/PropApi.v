(** * C48, C49, C51: the C interface, the command line calculator, magnification *)
From Coq Require Import ZArith Reals List Bool Lra Lia Ranalysis MVT.
From Verif Require Import Num NumR Structures EnergyTable Spline Integrator Calculations NucData
  Reactions Storage Catima CWrapper Calculator CacheProofs CacheFresh History KeyEq ApiCache GridProofs BoundsProofs TotalProofs
  ApiTotal Cases EnergyOutProofs LayerProofs DataProofs PropCache PropGrid PropSpline PropEnergyOut PropLayers PropMaterial PropKin PropSrim PropTables.
Import ListNotations.
Local Open Scope R_scope.

(** ** C48: materials *)
(** an element given by mass (0: the standard weight) and charge number *)
Definition weight_or_standard (ta : R) (z : Z) : R := if Rlt_dec 0 ta then ta else element_atomic_weight z.
Theorem C48_element ta z th rho : (1 <= z <= 98)%Z ->
  let a := weight_or_standard ta z in
  let density := if Rle_dec rho 0 then element_density z else rho in
  make_material ta (IZR z) th rho = Ok (mkMat density th a 0 [mkTarget a z 1]) /\
  Material_elem ta z density th 0 = mkMat density th a 0 [mkTarget a z 1].
Proof.
  intros Z. cbv zeta. unfold make_material, weight_or_standard.
  change (fto_int (IZR z)) with (Rto_int (IZR z)). rewrite Rto_int_IZR by lia. cbn [cast bind].
  unfold Material_elem, add_element, get_material, set_thickness, set_density, Material0.
  replace ((0 <? z) && (z <? 99))%Z with true by (symmetry; apply andb_true_iff; rewrite !Z.ltb_lt; lia).
  rewrite ?lit0R, ?lit0R', ?lit1R. replace (lit 200 : R) with 200 by (numR; dec_norm; reflexivity).
  cbn [m_rho m_th m_M m_I m_atoms app]. numR.
  destruct (Rltb_spec 200 (IZR z)) as [B|B]; [apply lt_IZR in B; lia|]. rewrite Rplus_0_l, Rmult_1_l.
  destruct (Rleb_spec rho 0), (Rle_dec rho 0); try lra; destruct (Rltb_spec 0 ta), (Rlt_dec 0 ta); try lra; cbn [m_rho m_th m_M m_I m_atoms app]; split; reflexivity.
Qed.
Print Assumptions C48_element.

(** numbers above 200 name a compound; its composition is that of the database *)
Theorem C48_compound ta z th rho : (201 <= z <= 2147483647)%Z ->
  let m := get_material (F:=R) z in
  make_material ta (IZR z) th rho = Ok (mkMat (if Rle_dec rho 0 then m_rho m else rho) th (m_M m) (m_I m) (m_atoms m)).
Proof.
  intros Z. cbv zeta. unfold make_material.
  change (fto_int (IZR z)) with (Rto_int (IZR z)). rewrite Rto_int_IZR by lia. cbn [cast bind].
  unfold set_thickness, set_density. rewrite lit0R'. replace (lit 200 : R) with 200 by (numR; dec_norm; reflexivity). numR.
  destruct (Rltb_spec 200 (IZR z)) as [B|B]; [|exfalso; apply B; apply IZR_lt; lia].
  destruct (Rleb_spec rho 0), (Rle_dec rho 0); try lra; reflexivity.
Qed.
Print Assumptions C48_compound.

(** the C++ function of seven numbers takes the material the C interface makes, when the density is given; a fraction
    of the charge number is dropped, and the library-wide config is used *)
Theorem C48_seven (junk : nat -> R * R) pa pz T ta z x th rho w : (1 <= z <= 98)%Z -> IZR z <= x < IZR z + 1 -> 0 < rho ->
  exists m, make_material ta (IZR z) th rho = Ok m /\
    calculate_7 junk pa pz T ta x th rho w = calculate junk (mkProj pa (IZR pz) (IZR pz) T) m (w_default w) w.
Proof.
  intros Z X RH. destruct (C48_element ta z th rho Z) as (M1 & M2). exists (mkMat (if Rle_dec rho 0 then element_density z else rho) th (weight_or_standard ta z) 0 [mkTarget (weight_or_standard ta z) z 1]). split; [exact M1|].
  destruct (Rle_dec rho 0) as [L|L]; [exfalso; lra|]. rewrite <- M2. unfold calculate_7. change (fto_int x) with (Rto_int x). assert (1 <= IZR z <= 98) by (split; apply IZR_le; lia).
  rewrite Rto_int_nonneg by lra. rewrite (Rfloor_unique x z) by lra. cbn [cast bind]. rewrite ?lit0R, ?lit0R'. f_equal.
  unfold Projectile_, at_T. numR. replace (Rlit 0) with 0 by (dec_norm; lra). destruct (Reqb_spec 0 0) as [_|B]; [|exfalso; lra]. reflexivity.
Qed.
Print Assumptions C48_seven.

(** ** C48: a program using the C interface *)
Section CCalls.
  Context {F : Type} {N : Num F}.
  Inductive ccall :=
  | CcSelect (cd : Z)                       (* catima_defaults.z_effective = cd *)
  | CcCalculate (pa : F) (pz : Z) (T ta tz thickness density : F)
  | CcEout (pa : F) (pz : Z) (T ta tz thickness density : F)
  | CcRange (pa : F) (pz : Z) (T ta tz : F)
  | CcRangeStraggling (pa : F) (pz : Z) (T ta tz : F)
  | CcAngular (pa : F) (pz : Z) (Tin Tout ta tz : F)
  | CcEnergyStraggling (pa : F) (pz : Z) (Tin Tout ta tz : F)
  | CcNonreaction (pa : F) (pz : Z) (T ta tz thickness : F).

  Variable junk : nat -> F * F.
  Definition c_one (cd : Z) (x : outcome (F * world F)) : outcome (list F * (Z * world F)) :=
    omap (fun r => ([fst r], (cd, snd r))) x.
  Definition exec_c (q : ccall) (s : Z * world F) : outcome (list F * (Z * world F)) :=
    let '(cd, w) := s in
    match q with
    | CcSelect cd' => Ok ([], (cd', w))
    | CcCalculate pa pz T ta tz th rho =>
        omap (fun r => let x := fst r in
                ([cr_Ein x; cr_Eout x; cr_Eloss x; cr_range x; cr_dEdxi x; cr_dEdxo x; cr_sigma_E x; cr_sigma_a x;
                  cr_sigma_r x; cr_tof x], (cd, snd r)))
             (catima_calculate junk cd pa pz T ta tz th rho w)
    | CcEout pa pz T ta tz th rho => c_one cd (catima_Eout junk cd pa pz T ta tz th rho w)
    | CcRange pa pz T ta tz => c_one cd (catima_range junk cd pa pz T ta tz w)
    | CcRangeStraggling pa pz T ta tz => c_one cd (catima_range_straggling junk cd pa pz T ta tz w)
    | CcAngular pa pz Tin Tout ta tz => c_one cd (catima_angular_straggling_from_E junk cd pa pz Tin Tout ta tz w)
    | CcEnergyStraggling pa pz Tin Tout ta tz => c_one cd (catima_energy_straggling_from_E junk cd pa pz Tin Tout ta tz w)
    | CcNonreaction pa pz T ta tz th => c_one cd (catima_nonreaction_rate junk cd pa pz T ta tz th w)
    end.
  Definition run_c (h : list ccall) (s : Z * world F) : outcome (Z * world F) :=
    ofold (fun s q => omap snd (exec_c q s)) h s.
End CCalls.
Arguments ccall F : clear implicits.

(** what each call means: the C++ call that the arguments describe.  The second component says
    which effective charge it is made with: the selected one, or the one left in default_config *)
Inductive charge_choice := Selected | LeftOver.
Definition material_args (q : ccall R) : option (R * R * R * R) :=
  match q with
  | CcSelect _ => None
  | CcCalculate _ _ _ ta tz th rho | CcEout _ _ _ ta tz th rho => Some (ta, tz, th, rho)
  | CcRange _ _ _ ta tz | CcRangeStraggling _ _ _ ta tz | CcAngular _ _ _ _ ta tz | CcEnergyStraggling _ _ _ _ ta tz => Some (ta, tz, 0, -1)
  | CcNonreaction _ _ _ ta tz th => Some (ta, tz, th, -1)
  end.
Definition bare (pa : R) (pz : Z) (T : R) : Projectile R := mkProj pa (IZR pz) (IZR pz) T.
Definition meaning (q : ccall R) (m : Material R) : option (charge_choice * (Config R -> call R)) :=
  match q with
  | CcSelect _ => None
  | CcCalculate pa pz T _ _ _ _ => Some (Selected, CCalculate (bare pa pz T) m)
  | CcEout pa pz T _ _ _ _ => Some (Selected, CEnergyOut (bare pa pz T) m)
  | CcRange pa pz _ _ _ => Some (Selected, CRange (bare pa pz 0) m)     (* not at the energy T *)
  | CcRangeStraggling pa pz T _ _ => Some (Selected, CRangeStraggling (bare pa pz 0) T m)
  | CcAngular pa pz Tin Tout _ _ => Some (LeftOver, CAngularStragglingE (bare pa pz Tin) Tout m)
  | CcEnergyStraggling pa pz Tin Tout _ _ => Some (LeftOver, CEnergyStragglingE (bare pa pz 0) Tin Tout m)
  | CcNonreaction pa pz T _ _ _ => Some (LeftOver, CNonreaction (bare pa pz T) m)
  end.
(** of the 13 numbers of a C++ Result the C struct has ten *)
Definition ten (q : ccall R) (l : list R) : list R :=
  match q with CcCalculate _ _ _ _ _ _ _ => firstn 9 l ++ firstn 1 (skipn 11 l) | _ => l end.
(** the configuration in use: everything as in the library's defaults, except the effective charge *)
Definition charge_config (z : Z) : Config R := mkConfig z 0 1 srim_85 sc_atima 1.
(** the effective charge left in default_config by a history: that of the last of the four
    selecting calls, Pierce-Blann (1) if there was none; cd is the current selection *)
Fixpoint left_over (h : list (ccall R)) (cd z : Z) : Z :=
  match h with
  | [] => z
  | q :: h' =>
      match q with
      | CcSelect cd' => left_over h' cd' z
      | CcCalculate _ _ _ _ _ _ _ | CcEout _ _ _ _ _ _ _ | CcRange _ _ _ _ _ | CcRangeStraggling _ _ _ _ _ => left_over h' cd (cd mod 256)%Z
      | _ => left_over h' cd z
      end
  end.
Definition the_charge (k : charge_choice) (cd z : Z) : Z := match k with Selected => (cd mod 256)%Z | LeftOver => z end.

Lemma bare_proj pa pz T : at_T (c_projectile pa pz) T = bare pa pz T /\ c_projectile pa pz = bare pa pz 0.
Proof.
  unfold c_projectile, Projectile_, at_T, bare. cbn [pA pZ pQ]. numR. dec_norm.
  destruct (Reqb_spec 0 0); [|lra]. split; reflexivity.
Qed.

(** one call, from any state whose default configuration has effective charge z *)
Theorem C48_call (junk : nat -> R * R) q cd w z ta tz th rho m k f : w_default w = charge_config z ->
  material_args q = Some (ta, tz, th, rho) -> make_material ta tz th rho = Ok m -> meaning q m = Some (k, f) ->
  let c := charge_config (the_charge k cd z) in
  exec_c junk q (cd, w) = omap (fun r => (ten q (fst r), (cd, snd r))) (exec junk (f c) (with_default c w)).
Proof.
  intros D MA MK ME. cbv zeta.
  assert (W1 : select_scattering (select_zeff cd w) = with_default (charge_config (cd mod 256)) w).
  { destruct w as [sl ix df jk]. cbn in D. subst df. reflexivity. }
  assert (W2 : select_scattering w = with_default (charge_config z) w).
  { destruct w as [sl ix df jk]. cbn in D. subst df. reflexivity. }
  assert (W3 : w = with_default (charge_config z) w).
  { destruct w as [sl ix df jk]. cbn in D. subst df. reflexivity. }
  assert (L0 : (lit 0 : R) = 0) by (numR; reflexivity). assert (L1 : (lit (-1) : R) = -1) by (numR; dec_norm; reflexivity).
  destruct q; try discriminate; injection MA as <- <- <- <-; injection ME as <- <-; cbn [exec_c the_charge exec ten];
    unfold catima_calculate, catima_Eout, catima_range, catima_range_straggling, catima_angular_straggling_from_E, catima_energy_straggling_from_E, catima_nonreaction_rate, c_one, one; rewrite ?W1, ?W2, ?L0, ?L1, MK;
    cbn [bind]; try rewrite !(proj1 (bare_proj _ _ _)); try rewrite !(proj2 (bare_proj pa pz 0)).
  - change (w_default (with_default (charge_config (cd mod 256)) w)) with (charge_config (cd mod 256)).
    destruct (calculate _ _ _ _ _) as [[r w']|]; reflexivity.
  - change (w_default (with_default (charge_config (cd mod 256)) w)) with (charge_config (cd mod 256)).
    destruct (energy_out _ _ _ _ _) as [[r w']|]; reflexivity.
  - change (w_default (with_default (charge_config (cd mod 256)) w)) with (charge_config (cd mod 256)).
    destruct (range _ _ _ _ _) as [[r w']|]; reflexivity.
  - change (w_default (with_default (charge_config (cd mod 256)) w)) with (charge_config (cd mod 256)).
    destruct (range_straggling _ _ _ _ _ _) as [[r w']|]; reflexivity.
  - change (w_default (with_default (charge_config z) w)) with (charge_config z).
    destruct (angular_straggling_from_E _ _ _ _ _ _) as [[r w']|]; reflexivity.
  - change (w_default (with_default (charge_config z) w)) with (charge_config z).
    destruct (energy_straggling_from_E _ _ _ _ _ _ _) as [[r w']|]; reflexivity.
  - rewrite <- W3, D. destruct (nonreaction_rate _ _ _ _ _) as [[r w']|]; reflexivity.
Qed.
Print Assumptions C48_call.

(** the state a program of C calls reaches is one that C++ calls reach *)
Lemma exec_all_snoc (junk : nat -> R * R) h q w w1 r w2 : exec_all junk h w = Ok w1 -> exec junk q w1 = Ok (r, w2) ->
  exec_all junk (h ++ [q]) w = Ok w2.
Proof.
  intros H Q. unfold exec_all in *. revert w H. induction h as [|q0 h IH]; intros w H.
  - cbn [ofold app] in *. injection H as ->. rewrite Q. reflexivity.
  - cbn [ofold app] in *. apply bind_ok in H. destruct H as (w0 & H0 & H). rewrite H0. cbn [bind]. apply IH. exact H.
Qed.
Definition unit_factor (q : call R) : Prop := forall k, In k (keys_of q) -> c_sfac (snd k) = 1.
(** only an assignment to default_config changes it *)
Lemma keeps_default {F} {N : Num F} (junk : nat -> F * F) q w r w' : wf w -> (forall c, q <> CSetDefault c) ->
  exec junk q w = Ok (r, w') -> w_default w' = w_default w.
Proof.
  intros W ND E. destruct (exec_history junk q w r w' E) as (h & O & R). clear E. revert w W R. induction h as [|o h IH]; intros w W R.
  - unfold run in R. cbn in R. congruence.
  - inversion O; subst. apply run_cons in R. destruct R as (w1 & S & R). rewrite (IH H2 w1 (wf_step _ _ _ _ _ W S) R).
    destruct H1 as [([[p t] c] & _ & e & th & ->)|[[-> ->]|(c & -> & _)]]; [|cbn in S; injection S as <-; reflexivity|destruct (ND c eq_refl)].
    cbn [step fst snd] in S.
    destruct (get_spec junk calculate_DataPoint w (at_T p e) (set_thickness t th) c W) as [(i & d & G & _)|(_ & [(why & _ & G)|(d & _ & G & _)])];
      rewrite G in S; cbn in S; [congruence|discriminate|]. injection S as <-. reflexivity.
Qed.
Lemma material_some q : (exists cd, q = CcSelect cd) \/ exists ta tz th rho, material_args q = Some (ta, tz, th, rho) /\
  forall junk cd w r, exec_c (F:=R) junk q (cd, w) = Ok r -> exists m, make_material ta tz th rho = Ok m.
Proof.
  assert (L0 : (lit 0 : R) = 0) by (numR; reflexivity). assert (L1 : (lit (-1) : R) = -1) by (numR; dec_norm; reflexivity).
  destruct q; [left; eexists; reflexivity| | | | | | |]; right; do 4 eexists; (split; [reflexivity|]); intros junk cd' w r E; cbn [exec_c] in E;
    unfold catima_calculate, catima_Eout, catima_range, catima_range_straggling, catima_angular_straggling_from_E, catima_energy_straggling_from_E, catima_nonreaction_rate, c_one in E;
    rewrite ?L0, ?L1 in E;
    match type of E with context [make_material ?a ?b ?c ?d] => destruct (make_material a b c d) as [m|]; [exists m; reflexivity|discriminate E] end.
Qed.
Lemma meaning_some q m : (exists cd, q = CcSelect cd) \/ exists k f, meaning q m = Some (k, f).
Proof. destruct q; [left; eexists; reflexivity| | | | | | |]; right; do 2 eexists; reflexivity. Qed.
Lemma meaning_sfac q m k f z : meaning q m = Some (k, f) -> unit_factor (f (charge_config z)).
Proof. intros M. destruct q; try discriminate M; injection M as <- <-; intros x [<-|[]]; reflexivity. Qed.
Lemma left_over_step q h cd z m k f : meaning q m = Some (k, f) -> left_over (q :: h) cd z = left_over h cd (the_charge k cd z).
Proof. intros M. destruct q; try discriminate M; injection M as <- <-; reflexivity. Qed.

Lemma c_reach (junk : nat -> R * R) : forall hc cd0 w0 z0 h0 cd w,
  exec_all junk h0 world0 = Ok w0 -> Forall unit_factor h0 -> w_default w0 = charge_config z0 ->
  run_c junk hc (cd0, w0) = Ok (cd, w) ->
  w_default w = charge_config (left_over hc cd0 z0) /\ exists h, exec_all junk h world0 = Ok w /\ Forall unit_factor h.
Proof.
  induction hc as [|q hc IH]; intros cd0 w0 z0 h0 cd w E0 U0 D0 RC.
  - unfold run_c in RC. cbn [ofold] in RC. injection RC as <- <-. split; [exact D0|]. exists h0. auto.
  - unfold run_c in RC. cbn [ofold] in RC. apply bind_ok in RC. destruct RC as ([cd1 w1] & S & RC).
    destruct (exec_c junk q (cd0, w0)) as [[l s]|] eqn:EX; [|discriminate]. cbn in S. injection S as ->.
    destruct (material_some q) as [[cd' ->]|(ta & tz & th & rho & MA & MK)].
    + cbn in EX. injection EX as <- <- <-. cbn [left_over]. exact (IH _ _ _ _ _ _ E0 U0 D0 RC).
    + destruct (MK _ _ _ _ EX) as [m M]. destruct (meaning_some q m) as [[cd' ->]|(k & f & ME)]; [discriminate MA|].
      rewrite (C48_call junk q cd0 w0 z0 ta tz th rho m k f D0 MA M ME) in EX. cbv zeta in EX.
      set (c := charge_config (the_charge k cd0 z0)) in *.
      destruct (exec junk (f c) (with_default c w0)) as [[l' w']|] eqn:EQ; [|discriminate].
      cbn [omap bind fst snd] in EX. injection EX as _ <- <-.
      assert (E1 : exec_all junk (h0 ++ [CSetDefault c]) world0 = Ok (with_default c w0)) by (eapply exec_all_snoc; [exact E0|reflexivity]).
      assert (E2 : exec_all junk ((h0 ++ [CSetDefault c]) ++ [f c]) world0 = Ok w') by (eapply exec_all_snoc; [exact E1|exact EQ]).
      rewrite (left_over_step q hc cd0 z0 m k f ME).
      apply (IH cd0 w' (the_charge k cd0 z0) ((h0 ++ [CSetDefault c]) ++ [f c]) cd w E2); [| |exact RC].
      * apply Forall_app. split; [apply Forall_app; split; [exact U0|]|]; (constructor; [|constructor]).
        -- intros x [].
        -- exact (meaning_sfac q m k f _ ME).
      * pose proof (exec_all_wf junk _ _ E1) as W. apply (keeps_default junk (f c) (with_default c w0) l' w' W); [|exact EQ].
        destruct q; try discriminate ME; injection ME as <- <-; discriminate.
Qed.

(** after any program of C calls since the start of the process, a call gives the numbers of the C++
    call it stands for, made with an empty cache and the stated configuration *)
Theorem C48_history_free (junk : nat -> R * R) hc cd w q ta tz th rho m k f :
  (forall i, junk i = junk 0%nat) ->
  run_c junk hc (1%Z, world0) = Ok (cd, w) ->
  material_args q = Some (ta, tz, th, rho) -> make_material ta tz th rho = Ok m -> meaning q m = Some (k, f) ->
  (forall x, In x (keys_of (f (charge_config 1))) -> pA (fst (fst x)) <> 0) ->
  let c := charge_config (the_charge k cd (left_over hc 1 1)) in
  omap fst (exec_c junk q (cd, w)) = omap (fun r => ten q (fst r)) (exec junk (f c) (with_default c world0)).
Proof.
  intros J RC MA M ME NZ. cbv zeta.
  assert (D0 : w_default (world0 (F:=R)) = charge_config 1) by (unfold world0, charge_config; cbn; unfold Config0; f_equal; numR; dec_norm; lra).
  destruct (c_reach junk hc 1 world0 1 [] cd w eq_refl (Forall_nil _) D0 RC) as (D & h & EH & UH).
  rewrite (C48_call junk q cd w _ ta tz th rho m k f D MA M ME). cbv zeta.
  set (c := charge_config (the_charge k cd (left_over hc 1 1))) in *.
  assert (E1 : exec_all junk (h ++ [CSetDefault c]) world0 = Ok (with_default c w)) by (eapply exec_all_snoc; [exact EH|reflexivity]).
  assert (E2 : exec_all junk [CSetDefault c] world0 = Ok (with_default c world0)) by reflexivity.
  pose proof (C01_two_histories junk (h ++ [CSetDefault c]) [CSetDefault c] (f c) (with_default c w) (with_default c world0) J E1 E2 eq_refl) as U.
  transitivity (omap (ten q) (omap fst (exec junk (f c) (with_default c w)))); [destruct (exec junk (f c) (with_default c w)) as [[l w']|]; reflexivity|].
  rewrite U.
  - destruct (exec junk (f c) (with_default c world0)) as [[l w']|]; reflexivity.
  - intros x IX KE. destruct KE as [[KA _] _].
    assert (IX' : exists y, In y (keys_of (f (charge_config 1))) /\ fst (fst y) = fst (fst x)).
    { clear -IX ME. destruct q; try discriminate ME; injection ME as <- <-; destruct IX as [<-|[]]; eexists; (split; [left; reflexivity|reflexivity]). }
    destruct IX' as (y & IY & EY). apply (NZ y IY). rewrite EY, <- KA. cbn. numR. reflexivity.
  - assert (UF : Forall unit_factor (f c :: (h ++ [CSetDefault c]) ++ [CSetDefault c])).
    { constructor; [exact (meaning_sfac q m k f _ ME)|]. assert (US : Forall unit_factor [CSetDefault c]) by (constructor; [intros x []|constructor]).
      apply Forall_app. split; [apply Forall_app; split; [exact UH|exact US]|exact US]. }
    rewrite Forall_forall in UF. intros q1 q2 k1 k2 I1 I2 K1 K2 _. rewrite (UF q1 I1 k1 K1), (UF q2 I2 k2 K2). reflexivity.
Qed.
Print Assumptions C48_history_free.

(** ** C48: the energy argument of catima_range *)
Theorem C48_range_ignores_energy {F} {N : Num F} (junk : nat -> F * F) cd pa pz T T' ta tz w :
  catima_range junk cd pa pz T ta tz w = catima_range junk cd pa pz T' ta tz w.
Proof. reflexivity. Qed.
Print Assumptions C48_range_ignores_energy.

Lemma lookup_made (junk : nat -> R * R) h w p t c d w' : exec_all junk h world0 = Ok w -> legit_p p -> legit_t t ->
  lookup junk p t c w = Ok (d, w') ->
  range_table p t c = Ok (dp_range d) /\ exists k s, make_spline energy_table (dp_range d) (junk k) = Ok s /\ dp_range_spline d = Some s.
Proof.
  intros E LP LT L. pose proof (legit_not_default p t c LP) as ND.
  split; [apply (C01_tables junk h w p t c d w' E); [|exact L]; intros KE; apply (key_match_R p t c DataPoint0) in KE; congruence|].
  assert (MK : forall k p t c, rcalc junk calculate_DataPoint k p t c = Ok d -> exists k s, make_spline energy_table (dp_range d) (junk k) = Ok s /\ dp_range_spline d = Some s).
  { intros k p0 t0 c0 R. unfold rcalc in R. apply bind_ok in R. destruct R as (d1 & _ & R2). unfold with_splines in R2.
    apply bind_ok in R2. destruct R2 as (s1 & S1 & R2). apply bind_ok in R2. destruct R2 as (s2 & _ & R2). apply bind_ok in R2. destruct R2 as (s3 & _ & R2).
    injection R2 as <-. exists k, s1. split; [exact S1|reflexivity]. }
  pose proof (inv_exec_all junk (fun _ _ _ => True) (fun _ _ _ _ _ => I) (fun _ _ _ _ _ => I) h world0 w (inv_world0 junk _)) as IV.
  destruct IV as [W V]; [apply Forall_forall; intros q _; apply Forall_forall; intros; exact I|exact E|].
  unfold lookup in L.
  destruct (get_spec junk calculate_DataPoint w p t c W) as [(i & e & G & Hi & EI & M)|(NM & [(why & R & G)|(d' & R & G & EI)])];
    rewrite G in L; cbn [bind] in L; try discriminate; unfold slot in L; rewrite EI in L; cbn [bind] in L.
  - assert (e = d) by congruence. subst e. rewrite Forall_forall in V. destruct (V d (nth_error_In _ _ EI)) as [->|[_ (k & CE)]]; [congruence|].
    exact (MK _ _ _ _ CE).
  - assert (d' = d) by congruence. subst d'. exact (MK _ _ _ _ R).
Qed.
(** at an energy of the grid the range returned is the tabulated one *)
Lemma range_at_node (junk : nat -> R * R) h w p t c i : exec_all junk h world0 = Ok w -> world_ok w -> legit_p p -> legit_t t -> (i < 600)%nat ->
  exists rt w', range_table p t c = Ok rt /\ range junk (at_T p (energy i)) t c w = Ok (nth i rt 0, w').
Proof.
  intros E W LP LT I. destruct (lookup_total junk (at_T p (energy i)) t c w (legit_at _ _ LP) LT W) as (d & w' & L & _).
  destruct (lookup_made junk h w _ t c d w' E (legit_at _ _ LP) LT L) as (RT & k & s & MS & SP).
  exists (dp_range d), w'. split; [exact RT|]. unfold range. rewrite L. cbn [bind]. rewrite SP. cbn [interp_eval pT at_T].
  rewrite energy_table_eq in MS. rewrite (C20_interpolates 600 (-3) 7 ltac:(lia) m600 l600 library_grid_spacing (dp_range d) (junk k) s MS i (energy i)).
  - reflexivity.
  - unfold at_. rewrite <- energy_table_eq. unfold energy. apply nth_error_nth'. rewrite grid_length. exact I.
Qed.
(** ranges at the grid energies strictly increase up to 10 MeV/u, whatever was computed before *)
Theorem C28_api (junk : nat -> R * R) h w p t c i j : exec_all junk h world0 = Ok w -> world_ok w -> legit_p p -> legit_t t -> solid t ->
  (i < j < 600)%nat -> energy j <= 10 ->
  exists ri rj wi wj, range junk (at_T p (energy i)) t c w = Ok (ri, wi) /\ range junk (at_T p (energy j)) t c w = Ok (rj, wj) /\ ri < rj.
Proof.
  intros E W LP LT SO IJ E10. destruct (range_at_node junk h w p t c i E W LP LT ltac:(lia)) as (rt & wi & RT & RI).
  destruct (range_at_node junk h w p t c j E W LP LT ltac:(lia)) as (rt' & wj & RT' & RJ).
  assert (rt' = rt) by congruence. subst rt'. do 4 eexists. split; [exact RI|]. split; [exact RJ|].
  apply (C28_low p t c rt); try assumption. destruct LP as [LZ LA]. split; lra.
Qed.
Print Assumptions C28_api.

(** so catima_range cannot be the range at the given energy *)
Theorem C48_range_refuted : exists (junk : nat -> R * R) cd pa pz ta tz m T1 T2 r w' r1 w1 r2 w2,
  make_material ta tz 0 (-1) = Ok m /\
  catima_range junk cd pa pz T1 ta tz world0 = Ok (r, w') /\
  catima_range junk cd pa pz T2 ta tz world0 = Ok (r, w') /\
  range junk (bare pa pz T1) m (charge_config (cd mod 256)) world0 = Ok (r1, w1) /\
  range junk (bare pa pz T2) m (charge_config (cd mod 256)) world0 = Ok (r2, w2) /\ r1 <> r2.
Proof.
  pose proof (proj1 (C48_element 12 6 0 (-1) ltac:(lia))) as MK. cbv zeta in MK. set (m := mkMat _ _ _ _ _) in MK.
  assert (A12 : weight_or_standard 12 6 = 12) by (unfold weight_or_standard; destruct (Rlt_dec 0 12); lra).
  assert (LM : legit_t m) by (unfold legit_t, m; cbn [m_atoms]; apply Forall_cons; [cbn [tZ tA]; rewrite A12; split; [lia|lra]|apply Forall_nil]).
  assert (SM : solid m).
  { unfold solid, m. cbn [m_atoms m_M]. rewrite A12. split; [discriminate|]. split; [lra|]. apply Forall_cons; [cbn [tZ tA tstn]; split; [lra|split; [lia|lra]]|apply Forall_nil]. }
  assert (LP : forall T, legit_p (bare 1 1 T)) by (intros T; unfold legit_p, bare; cbn [pZ pA]; lra).
  assert (E10 : energy 1 <= 10).
  { rewrite energy_G by lia. pose proof LN10_bounds as LB. unfold gval.
    match goal with |- exp ?x <= 10 => assert (X : x < 0) end.
    { unfold gstep. rewrite INR_IZR_INZ with (n := 600%nat). change (Z.of_nat 600) with 600%Z. cbn [INR]. 
      replace (-3 + 1 * ((7 - -3) / (600 - 1))) with (- (1787 / 599)) by lra. set (l := LN10_) in *. clearbody l. nra. }
    apply exp_increasing in X. rewrite exp_0 in X. lra. }
  destruct (C28_api junk0 [] world0 (bare 1 1 0) m (charge_config 1) 0 1 eq_refl world_ok0 (LP 0) LM SM ltac:(lia) E10) as (r1 & r2 & w1 & w2 & R1 & R2 & LT).
  destruct (range_good junk0 (bare 1 1 0) m (charge_config 1) (with_default (charge_config 1) world0) (LP 0) LM) as (r & w' & RR & _).
  { destruct world_ok0 as [W V]. split; [split; apply W|exact V]. }
  exists junk0, 1%Z, 1, 1%Z, 12, 6, m, (energy 0), (energy 1), r, w', r1, w1, r2, w2.
  assert (CR : forall T, catima_range junk0 1 1 1 T 12 6 world0 = Ok (r, w')).
  { intros T. pose proof (C48_call junk0 (CcRange 1 1%Z T 12 6) 1 world0 1 12 6 0 (-1) m Selected (CRange (bare 1 1 0) m)) as C.
    cbv zeta in C. specialize (C ltac:(unfold world0, charge_config; cbn; unfold Config0; f_equal; numR; dec_norm; lra) eq_refl MK eq_refl).
    cbn [exec_c c_one exec one the_charge ten] in C. change (1 mod 256)%Z with 1%Z in C. unfold one, c_one in C.
    rewrite RR in C. destruct (catima_range junk0 1 1 1 T 12 6 world0) as [[x y]|]; [|discriminate C]. cbn in C. congruence. }
  split; [exact MK|]. split; [apply CR|]. split; [apply CR|]. split; [exact R1|]. split; [exact R2|]. lra.
Qed.
Print Assumptions C48_range_refuted.

(** ** C48: the calls that do not look at the selection *)
Theorem C48_selection_ignored {F} {N : Num F} (junk : nat -> F * F) cd cd' pa pz T T' ta tz th w :
  catima_nonreaction_rate junk cd pa pz T ta tz th w = catima_nonreaction_rate junk cd' pa pz T ta tz th w /\
  catima_angular_straggling_from_E junk cd pa pz T T' ta tz w = catima_angular_straggling_from_E junk cd' pa pz T T' ta tz w /\
  catima_energy_straggling_from_E junk cd pa pz T T' ta tz w = catima_energy_straggling_from_E junk cd' pa pz T T' ta tz w.
Proof. repeat split. Qed.
Print Assumptions C48_selection_ignored.
(** Anthony-Landford (2) is selected, the reaction rate is asked for: the only tables computed are for
    Pierce-Blann *)
Theorem C48_selection_refuted : exists (junk : nat -> R * R) pa pz T ta tz th r w',
  run_c junk [CcSelect 2] (1%Z, world0) = Ok (2%Z, world0) /\
  exec_c junk (CcNonreaction pa pz T ta tz th) (2%Z, world0) = Ok (r, (2%Z, w')) /\
  Exists occupied (w_slots w') /\ Forall (fun d => c_zeff (dp_c d) = 1%Z) (w_slots w').
Proof.
  pose proof (proj1 (C48_element 12 6 1 (-1) ltac:(lia))) as MK. cbv zeta in MK. set (m := mkMat _ _ _ _ _) in MK.
  assert (A12 : weight_or_standard 12 6 = 12) by (unfold weight_or_standard; destruct (Rlt_dec 0 12); lra).
  assert (LM : legit_t m) by (unfold legit_t, m; cbn [m_atoms]; apply Forall_cons; [cbn [tZ tA]; rewrite A12; split; [lia|lra]|apply Forall_nil]).
  assert (LP : legit_p (bare 12 6 300)) by (unfold legit_p, bare; cbn [pZ pA]; lra).
  set (w := with_default (charge_config 1) (world0 (F:=R))).
  assert (OW : world_ok w) by (destruct world_ok0 as [W V]; split; [split; apply W|exact V]).
  destruct (nonreaction_rate_good junk0 (bare 12 6 300) m (charge_config 1) w LP LM OW) as (r & w' & RR & _).
  exists junk0, 12, 6%Z, 300, 12, 6, 1, [r], w'. split; [reflexivity|]. split.
  { pose proof (C48_call junk0 (CcNonreaction 12 6%Z 300 12 6 1) 2 world0 1 12 6 1 (-1) m LeftOver (CNonreaction (bare 12 6 300) m)) as C.
    cbv zeta in C. rewrite (C ltac:(unfold world0, charge_config; cbn; unfold Config0; f_equal; numR; dec_norm; lra) eq_refl MK eq_refl).
    cbn [exec the_charge ten]. fold w. rewrite RR. reflexivity. }
  unfold nonreaction_rate in RR. replace (pT (bare 12 6 300) <? emin_reaction)%num with false in RR
    by (symmetry; unfold emin_reaction; cbn [bare pT]; numR; dec_norm; destruct (Rltb_spec 300 (300 / 10)); [lra|reflexivity]).
  replace (m_th m <=? lit 0.0)%num with false in RR by (symmetry; unfold m; cbn [m_th]; numR; dec_norm; destruct (Rleb_spec 1 (0 / 10)); [lra|reflexivity]).
  apply bind_ok in RR. destruct RR as (a & _ & RR). apply bind_ok in RR. destruct RR as (z & _ & RR).
  apply bind_ok in RR. destruct RR as ([d w1] & L & RR). apply bind_ok in RR. destruct RR as (x & _ & RR).
  assert (w1 = w') by congruence. subst w1. unfold lookup in L.
  destruct (get_spec junk0 calculate_DataPoint w (bare 12 6 300) m (charge_config 1) (proj1 OW)) as [(i & e & G & Hi & EI & M)|(NM & [(why & R & G)|(d' & R & G & EI)])];
    rewrite G in L; cbn [bind] in L; [|discriminate|].
  - exfalso. assert (e = DataPoint0).
    { apply nth_error_In in EI. unfold w, with_default, world0 in EI. cbn [w_slots] in EI. apply repeat_spec in EI. exact EI. }
    subst e. rewrite legit_not_default in M by exact LP. discriminate.
  - unfold slot in L. rewrite EI in L. cbn [bind] in L. assert (EW : w' = inserted w d') by congruence. subst w'. split.
    + apply Exists_exists. exists d'. split; [exact (nth_error_In _ _ EI)|]. exact (rcalc_spline junk0 calculate_DataPoint _ _ _ _ _ R).
    + unfold inserted. cbn [w_slots]. apply Forall_set_slot; [|].
      * unfold w, with_default, world0. cbn [w_slots]. apply Forall_forall. intros y Y. apply repeat_spec in Y. subst y. reflexivity.
      * destruct (rcalc_key junk0 calculate_DataPoint calc_keys _ _ _ _ _ R) as (_ & _ & ->). reflexivity.
Qed.
Print Assumptions C48_selection_refuted.

(** ** C48: a program *)
Lemma carbon_material th : exists m, make_material 12 6 th (-1) = Ok m /\ legit_t m.
Proof.
  pose proof (proj1 (C48_element 12 6 th (-1) ltac:(lia))) as MK. cbv zeta in MK. eexists. split; [exact MK|].
  assert (A12 : weight_or_standard 12 6 = 12) by (unfold weight_or_standard; destruct (Rlt_dec 0 12); lra).
  unfold legit_t. cbn [m_atoms]. apply Forall_cons; [cbn [tZ tA]; rewrite A12; split; [lia|lra]|apply Forall_nil].
Qed.
Definition program : list (ccall R) :=
  [CcRange 1 1%Z 50 12 6; CcSelect 3; CcRangeStraggling 12 6%Z 50 12 6; CcSelect 2; CcEnergyStraggling 12 6%Z 300 200 12 6].
Example C48_case : exists w m, run_c junk0 program (1%Z, world0) = Ok (2%Z, w) /\ make_material 12 6 1 (-1) = Ok m /\
  meaning (CcNonreaction 12 6%Z 300 12 6 1) m = Some (LeftOver, CNonreaction (bare 12 6 300) m) /\
  the_charge LeftOver 2 (left_over program 1 1) = 3%Z /\
  (forall x, In x (keys_of (CNonreaction (bare 12 6 300) m (charge_config 1))) -> pA (fst (fst x)) <> 0).
Proof.
  destruct (carbon_material 1) as (m1 & M1 & _). destruct (carbon_material 0) as (m & M & LM).
  assert (LP : forall a z T, 1 <= IZR z < 109 -> 0 < a <= 1000 -> legit_p (bare a z T)) by (intros; split; assumption).
  assert (D0 : w_default (world0 (F:=R)) = charge_config 1) by (unfold world0, charge_config; cbn; unfold Config0; f_equal; numR; dec_norm; lra).
  assert (OD : forall c w, world_ok w -> world_ok (with_default c w)) by (intros c w [W V]; split; [split; apply W|exact V]).
  destruct (range_good junk0 (bare 1 1 0) m (charge_config 1) (with_default (charge_config 1) world0) (LP 1 1%Z 0 ltac:(lra) ltac:(lra)) LM (OD _ _ world_ok0)) as (r1 & w1 & R1 & O1 & D1).
  destruct (range_straggling_good junk0 (bare 12 6 0) m (charge_config 3) (with_default (charge_config 3) w1) (LP 12 6%Z 0 ltac:(lra) ltac:(lra)) LM (OD _ _ O1) 50) as (r2 & w2 & R2 & O2 & D2).
  destruct (energy_straggling_from_E_good junk0 (bare 12 6 0) m (charge_config 3) (with_default (charge_config 3) w2) (LP 12 6%Z 0 ltac:(lra) ltac:(lra)) LM (OD _ _ O2) 300 200) as (r3 & w3 & R3 & O3 & D3).
  exists w3, m1. split; [|split; [exact M1|split; [reflexivity|split; [reflexivity|intros x [<-|[]]; cbn; lra]]]].
  unfold run_c, program. cbn [ofold].
  rewrite (C48_call junk0 (CcRange 1 1%Z 50 12 6) 1 world0 1 12 6 0 (-1) m Selected (CRange (bare 1 1 0) m) D0 eq_refl M eq_refl).
  cbn [the_charge exec ten]. change (1 mod 256)%Z with 1%Z. rewrite R1. cbn [one omap bind fst snd].
  change (exec_c junk0 (CcSelect 3) (1%Z, w1)) with (@Ok (list R * (Z * world R)) ([], (3%Z, w1))). cbn [omap bind fst snd].
  rewrite (C48_call junk0 (CcRangeStraggling 12 6%Z 50 12 6) 3 w1 1 12 6 0 (-1) m Selected (CRangeStraggling (bare 12 6 0) 50 m) D1 eq_refl M eq_refl).
  cbn [the_charge exec ten]. change (3 mod 256)%Z with 3%Z. rewrite R2. cbn [one omap bind fst snd].
  change (exec_c junk0 (CcSelect 2) (3%Z, w2)) with (@Ok (list R * (Z * world R)) ([], (2%Z, w2))). cbn [omap bind fst snd].
  rewrite (C48_call junk0 (CcEnergyStraggling 12 6%Z 300 200 12 6) 2 w2 3 12 6 0 (-1) m LeftOver (CEnergyStragglingE (bare 12 6 0) 300 200 m) D2 eq_refl M eq_refl).
  cbn [the_charge exec ten]. rewrite R3. reflexivity.
Qed.

(** ** C49: the energy grid of the calculator *)
Theorem C49_grid a b n : (2 <= n)%Z -> a < b ->
  let l := linspace_vector a b n in
  length l = Z.to_nat n /\ nth 0 l 0 = a /\ nth (Z.to_nat n - 1) l 0 = b /\
  (forall i, (i < Z.to_nat n)%nat -> nth i l 0 = a + IZR (Z.of_nat i) * ((b - a) / (IZR n - 1))) /\
  (forall i j, (i < j < Z.to_nat n)%nat -> nth i l 0 < nth j l 0).
Proof.
  intros N AB. cbv zeta. unfold linspace_vector. numR.
  replace (2 <=? n)%Z with true by (symmetry; apply Z.leb_le; exact N). destruct (Rltb_spec a b); [|lra]. cbn [andb].
  set (step := (b - a) / IZR (n - 1)). set (f := fun i => a + IZR (Z.of_nat i) * step).
  assert (NP : 0 < IZR n - 1) by (apply IZR_le in N; lra).
  assert (ES : step = (b - a) / (IZR n - 1)) by (unfold step; rewrite minus_IZR; reflexivity).
  assert (SP : 0 < step) by (rewrite ES; apply Rdiv_lt_0_compat; lra).
  set (k := Z.to_nat (n - 1)). assert (EK : Z.to_nat n = S k) by (unfold k; lia).
  assert (LM : length (map f (seq 0 k)) = k) by (rewrite map_length, seq_length; reflexivity).
  assert (NB : f k = b) by (unfold f, k; rewrite Z2Nat.id by lia; rewrite ES, minus_IZR; field; lra).
  assert (NT : forall i, (i < S k)%nat -> nth i (map f (seq 0 k) ++ [b]) 0 = f i).
  { intros i I. destruct (Nat.eq_dec i k) as [->|NE].
    - rewrite app_nth2 by lia. rewrite LM, Nat.sub_diag. cbn [nth]. symmetry. exact NB.
    - rewrite app_nth1 by lia. rewrite (nth_indep _ 0 (f 0%nat)) by lia. rewrite map_nth. rewrite seq_nth by lia. reflexivity. }
  rewrite EK. split; [rewrite app_length, LM; cbn [length]; lia|].
  split; [rewrite NT by lia; unfold f; cbn [Z.of_nat]; ring|].
  split; [replace (S k - 1)%nat with k by lia; rewrite NT by lia; exact NB|].
  split; [intros i I; rewrite NT by exact I; unfold f; rewrite <- ES; reflexivity|].
  intros i j IJ. rewrite !NT by lia. unfold f. assert (IZR (Z.of_nat i) < IZR (Z.of_nat j)) by (apply IZR_lt; lia). nra.
Qed.
Print Assumptions C49_grid.
Theorem C49_no_grid a b n : (n < 2)%Z \/ b <= a -> linspace_vector (F:=R) a b n = [].
Proof.
  intros H. unfold linspace_vector. numR. destruct (Z.leb_spec 2 n); [|reflexivity]. destruct (Rltb_spec a b); [|reflexivity]. destruct H; [lia|lra].
Qed.
Print Assumptions C49_no_grid.
(** the number of points comes out right and the last point is max in binary64 as well *)
Theorem C49_grid_ends {F} {N : Num F} (a b : F) n : (2 <= n)%Z -> fltb a b = true ->
  length (linspace_vector a b n) = Z.to_nat n /\ last (linspace_vector a b n) a = b.
Proof.
  intros H AB. unfold linspace_vector. replace (2 <=? n)%Z with true by (symmetry; apply Z.leb_le; exact H). rewrite AB. cbn [andb].
  split; [rewrite app_length, map_length, seq_length; cbn [length]; lia|]. apply last_last.
Qed.
Print Assumptions C49_grid_ends.

(** ** C49: which energies are computed *)
Lemma step_count (emin emax : R) s : emin < emax -> (0 < s)%Z -> (emax - emin) / IZR s < 2147483647 ->
  exists k, cast (Rto_int (1 + (emax - emin) / IZR s)) = Ok k /\ IZR k <= 1 + (emax - emin) / IZR s < IZR k + 1.
Proof.
  intros E S B. assert (0 < IZR s) by (apply IZR_lt; exact S). assert (0 < (emax - emin) / IZR s) by (apply Rdiv_lt_0_compat; lra).
  rewrite Rto_int_nonneg by lra. eexists. split; [reflexivity|]. apply Rfloor_bound.
Qed.
(** at least three points asked for: the grid; "num" takes precedence over "step" *)
Theorem C49_energies emin emax num step : emin < emax -> (3 <= num)%Z ->
  (forall s, step = Some s -> (0 < s)%Z /\ (emax - emin) / IZR s < 2147483647) ->
  energies (EGrid emin emax (Some num) step) = Ok (linspace_vector emin emax num).
Proof.
  intros E3 N SR. assert (GT : (num >? 2)%Z = true) by (apply Z.gtb_lt; lia).
  destruct step as [s|]; cbn [energies grid_num bind]; [|rewrite GT; reflexivity].
  destruct (SR s eq_refl) as [S0 SB]. destruct (step_count emin emax s E3 S0 SB) as (k & C & _).
  unfold grid_num. replace (lit 1 : R) with 1 by (numR; reflexivity). numR. rewrite C. cbn [bind]. rewrite GT. reflexivity.
Qed.
Print Assumptions C49_energies.
(** with a step, the grid has one point more than the whole steps that fit into the interval *)
Theorem C49_step emin emax s : emin < emax -> (0 < s)%Z -> 2 * IZR s <= emax - emin -> (emax - emin) / IZR s < 2147483647 ->
  exists n, (3 <= n)%Z /\ energies (EGrid emin emax None (Some s)) = Ok (linspace_vector emin emax n) /\
    (IZR n - 1) * IZR s <= emax - emin < IZR n * IZR s.
Proof.
  intros E S L B. destruct (step_count emin emax s E S B) as (k & C & K1 & K2). assert (SP : 0 < IZR s) by (apply IZR_lt; exact S).
  set (x := (emax - emin) / IZR s) in *. assert (EX : x * IZR s = emax - emin) by (unfold x; field; lra).
  assert (X2 : 2 <= x) by (apply Rmult_le_reg_r with (IZR s); lra).
  assert (K3 : (3 <= k)%Z) by (assert (2 < IZR k) by lra; apply lt_IZR in H; lia).
  exists k. split; [exact K3|]. split.
  - cbn [energies]. unfold grid_num. replace (lit 1 : R) with 1 by (numR; reflexivity). numR. fold x. rewrite C. cbn [bind].
    replace (k >? 2)%Z with true by (symmetry; apply Z.gtb_lt; lia). reflexivity.
  - rewrite <- EX. split; nra.
Qed.
Print Assumptions C49_step.
(** so the spacing is the step only if the step divides the interval: 10 to 100 in steps of 40 gives
    10, 55, 100 *)
Theorem C49_step_refuted : exists emin emax s l, emin < emax /\ (0 < s)%Z /\
  energies (EGrid emin emax None (Some s)) = Ok l /\ length l = 3%nat /\ nth 1 l 0 - nth 0 l 0 <> IZR s.
Proof.
  destruct (C49_step 10 100 40 ltac:(lra) ltac:(lia) ltac:(lra) ltac:(lra)) as (n & N3 & E & B).
  assert (N : n = 3%Z) by (assert (IZR n < 4) by lra; apply lt_IZR in H; lia). subst n.
  destruct (C49_grid 10 100 3 ltac:(lia) ltac:(lra)) as (L & _ & _ & V & _).
  exists 10, 100, 40%Z, (linspace_vector 10 100 3). split; [lra|]. split; [lia|]. split; [exact E|]. split; [exact L|].
  rewrite !V by (cbn; lia). cbn [Z.of_nat Pos.of_succ_nat]. lra.
Qed.
Print Assumptions C49_step_refuted.
(** two points, which linspace_vector can make, give no energies *)
Theorem C49_two_points emin emax : energies (F:=R) (EGrid emin emax (Some 2%Z) None) = Ok [] /\
  (emin < emax -> linspace_vector emin emax 2 = [emin; emax]).
Proof.
  split; [reflexivity|]. intros E. unfold linspace_vector. numR. destruct (Rltb_spec emin emax); [|lra]. cbn. apply (f_equal (fun x => [x; emax])). ring.
Qed.
Print Assumptions C49_two_points.

(** ** C49: the rest of the input *)
Theorem C49_config {F} {N : Num F} (junk : nat -> F * F) a z e ms c c' w :
  main_ junk (mkInput a z e ms c) w = main_ junk (mkInput a z e ms c') w.
Proof. reflexivity. Qed.
Print Assumptions C49_config.
Theorem C49_compound a z rho rho' th ip ip' : (200 <= z)%Z ->
  json_material (F:=R) (mkMI a (Some z) rho th ip) = json_material (mkMI a (Some z) rho' th ip') /\
  json_material (F:=R) (mkMI a (Some z) rho th ip) = Some (set_thickness (get_material z) (match th with Some x => x | None => 0 end)).
Proof.
  intros Z. assert (J : forall r i, json_material (F:=R) (mkMI a (Some z) r th i) = Some (set_thickness (get_material z) (match th with Some x => x | None => 0 end))).
  { intros r i. unfold json_material. cbn [mi_Z mi_thickness]. destruct (Z.leb_spec z 0); [lia|]. destruct (Z.ltb_spec z 200); [lia|].
    destruct th; cbn [opt]; [reflexivity|]. rewrite lit0R'. reflexivity. }
  split; [rewrite !J; reflexivity|apply J].
Qed.
Print Assumptions C49_compound.
Theorem C49_element a z rho th ip : (1 <= z < 200)%Z ->
  let mass := weight_or_standard (match a with Some x => x | None => 0 end) z in
  let rho' := match rho with Some x => if Rle_dec x 0 then element_density z else x | None => element_density z end in
  let ip' := match ip with Some x => if Rle_dec x 0 then 0 else x | None => 0 end in
  json_material (F:=R) (mkMI a (Some z) rho th ip) =
    Some (mkMat rho' (match th with Some x => x | None => 0 end) mass ip' [mkTarget mass z 1]).
Proof.
  intros Z. cbv zeta. unfold json_material. cbn [mi_Z mi_thickness mi_A mi_density mi_Ipot].
  destruct (Z.leb_spec z 0); [lia|]. destruct (Z.ltb_spec z 200); [|lia].
  assert (O : forall o : option R, opt o = match o with Some x => x | None => 0 end) by (intros [x|]; cbn [opt]; [reflexivity|apply lit0R']).
  rewrite !O. unfold Material_elem, add_element, set_I, weight_or_standard. cbn [m_rho m_th m_M m_I m_atoms app]. rewrite ?lit0R, ?lit0R', ?lit1R. numR.
  rewrite Rplus_0_l, Rmult_1_l. set (A := match a with Some x => x | None => 0 end).
  assert (EA : (if Rltb 0 A then A else element_atomic_weight z) = (if Rlt_dec 0 A then A else element_atomic_weight z)) by (destruct (Rltb_spec 0 A), (Rlt_dec 0 A); try lra; reflexivity).
  rewrite EA.
  assert (ER : (if Rleb match rho with Some x => x | None => 0 end 0 then element_density z else match rho with Some x => x | None => 0 end)
    = match rho with Some x => if Rle_dec x 0 then element_density z else x | None => element_density z end).
  { destruct rho as [x|]; [destruct (Rleb_spec x 0), (Rle_dec x 0)|destruct (Rleb_spec 0 0)]; try lra; reflexivity. }
  rewrite ER. destruct ip as [x|]; [destruct (Rltb_spec 0 x), (Rle_dec x 0)|destruct (Rltb_spec 0 0)]; try lra; reflexivity.
Qed.
Print Assumptions C49_element.

(** each energy: the numbers of catima::calculate on the layers with the default configuration and an
    empty cache, whatever the other energies, their order, and the "config" entry *)
Definition numbers (r : MultiResult R) : list R := concat (map result_list (mr_results r)) ++ result_list (mr_total r).
Lemma all_some_spec {A B} (f : A -> option B) l ms : all_some (map f l) = Some ms -> Forall2 (fun j m => f j = Some m) l ms.
Proof.
  revert ms. induction l as [|x l IH]; intros ms H; cbn in H; [injection H as <-; constructor|].
  destruct (f x) as [y|] eqn:E; [|discriminate]. destruct (all_some (map f l)) as [ys|] eqn:ES; [|discriminate]. cbn in H. injection H as <-.
  constructor; [exact E|]. apply IH. reflexivity.
Qed.
Lemma energies_alone (junk : nat -> R * R) p ms es rs w : (forall k, junk k = junk 0%nat) -> pA p <> 0 -> p = mkProj (pA p) (pZ p) (lit 0) (lit 0) ->
  run_energies junk p ms es world0 = Ok (rs, w) ->
  Forall2 (fun e r => omap fst (exec junk (CLayers (mkProj (pA p) (pZ p) 0 e) Phasespace0 ms Config0) world0) = Ok (numbers r)) es rs.
Proof.
  intros J A EP RE. set (call_at := fun e => CLayers (at_T p e) Phasespace0 ms Config0).
  assert (G : forall es h w0 rs w1, exec_all junk h world0 = Ok w0 -> w_default w0 = Config0 -> Forall unit_factor h ->
    run_energies junk p ms es w0 = Ok (rs, w1) -> Forall2 (fun e r => omap fst (exec junk (call_at e) world0) = Ok (numbers r)) es rs).
  { clear RE. clear es. intros es. induction es as [|e es IH]; intros h w0 rs0 w1 EH D U RE; cbn [run_energies] in RE; [injection RE as <- <-; constructor|].
    apply bind_ok in RE. destruct RE as ([r w2] & C & RE). apply bind_ok in RE. destruct RE as ([rs1 w3] & RE & X). injection X as <- <-. rewrite D in C.
    assert (EX : exec junk (call_at e) w0 = Ok (numbers r, w2)) by (unfold call_at; cbn [exec]; rewrite C; reflexivity).
    assert (UC : unit_factor (call_at e)) by (intros k K; cbn [call_at keys_of] in K; apply in_map_iff in K; destruct K as (m0 & <- & _); cbn; numR; dec_norm; lra).
    constructor.
    - rewrite <- (C01_two_histories junk h [] (call_at e) w0 world0 J EH eq_refl).
      + rewrite EX. reflexivity.
      + exact D.
      + intros k K KE. cbn [call_at keys_of] in K. apply in_map_iff in K. destruct K as (m0 & <- & _). destruct KE as [[KA _] _]. apply A. cbn in KA. rewrite <- KA. numR. reflexivity.
      + assert (UF : Forall unit_factor (call_at e :: h ++ [])) by (rewrite app_nil_r; constructor; assumption). rewrite Forall_forall in UF.
        intros q1 q2 k1 k2 I1 I2 K1 K2 _. rewrite (UF q1 I1 k1 K1), (UF q2 I2 k2 K2). reflexivity.
    - apply (IH (h ++ [call_at e]) w2 rs1 w3).
      + eapply exec_all_snoc; [exact EH|exact EX].
      + rewrite (keeps_default junk (call_at e) w0 _ w2 (exec_all_wf junk _ _ EH) ltac:(discriminate) EX). exact D.
      + apply Forall_app. split; [exact U|]. constructor; [exact UC|constructor].
      + exact RE. }
  pose proof (G es [] world0 rs w eq_refl eq_refl (Forall_nil _) RE) as GG. unfold call_at in GG. rewrite EP in GG. unfold at_T in GG. cbn [pA pZ pQ] in GG. rewrite lit0R in GG. exact GG.
Qed.
Theorem C49_run (junk : nat -> R * R) i rs w : (forall k, junk k = junk 0%nat) -> in_A i <> 0 ->
  main_ junk i world0 = Ok (Some rs, w) ->
  exists ms es, Forall2 (fun j m => json_material j = Some m) (in_materials i) ms /\ ms <> [] /\
    energies (in_energy i) = Ok es /\ es <> [] /\
    Forall2 (fun e r => omap fst (exec junk (CLayers (mkProj (in_A i) (in_Z i) 0 e) Phasespace0 ms Config0) world0) = Ok (numbers r)) es rs.
Proof.
  intros J A E. unfold main_ in E. destruct (energies (in_energy i)) as [es|] eqn:EE; [|discriminate]. cbn [bind] in E.
  destruct (all_some (map json_material (in_materials i))) as [ms|] eqn:EM; [|discriminate]. apply all_some_spec in EM.
  destruct ms as [|m ms']; [discriminate|]. set (ms := m :: ms') in *. destruct es as [|e es']; [discriminate|]. set (es := e :: es') in *.
  apply bind_ok in E. destruct E as ([rs' w1] & RE & E). injection E as -> ->.
  exists ms, es. split; [exact EM|]. split; [discriminate|]. split; [reflexivity|]. split; [discriminate|].
  exact (energies_alone junk (mkProj (in_A i) (in_Z i) (lit 0) (lit 0)) ms es rs w J A eq_refl RE).
Qed.
Print Assumptions C49_run.

(** a grid of three energies on a layer without thickness *)
Lemma no_thickness (junk : nat -> R * R) p t c w : legit_p p -> legit_t t -> world_ok w -> m_th t = 0 ->
  exists r w', calculate junk p t c w = Ok (r, w') /\ world_ok w'.
Proof.
  intros LP LT W TH. unfold calculate. fold (too_low (pT p)).
  destruct (too_low (pT p)); [do 2 eexists; split; [reflexivity|exact W]|].
  destruct (lookup_total junk p t c w LP LT W) as (d & w1 & L & OD & OW & _).
  rewrite L. cbn [bind].
  destruct (dp_range_ok d (pT p) OD) as (rg & RG). rewrite RG. cbn [bind].
  destruct (dp_range_d_ok d (pT p) OD) as (dr & DR). rewrite DR. cbn [bind].
  destruct (dp_rs_ok d (pT p) OD) as (sv & SV). rewrite SV. cbn [bind]. cbv zeta.
  rewrite TH, lit0R. numR. destruct (Reqb_spec 0 0); [|lra].
  eexists. eexists. split; [reflexivity|exact OW].
Qed.
Example C49_case : exists rs w, length rs = 3%nat /\
  main_ junk0 (mkInput 12 6 (EGrid 100 300 (Some 3%Z) None) [mkMI (Some 12) (Some 6%Z) None None None] Atima13) world0 = Ok (Some rs, w).
Proof.
  set (mat := mkMat (element_density 6) 0 12 0 [mkTarget 12 6 1]).
  assert (JM : json_material (mkMI (Some 12) (Some 6%Z) None None None) = Some mat).
  { pose proof (C49_element (Some 12) 6 None None None ltac:(lia)) as E. cbv zeta in E. rewrite E. unfold weight_or_standard. destruct (Rlt_dec 0 12); [reflexivity|lra]. }
  assert (LT : legit_t mat) by (unfold legit_t, mat; cbn [m_atoms]; apply Forall_cons; [cbn [tZ tA]; split; [lia|lra]|apply Forall_nil]).
  pose proof (C49_energies 100 300 3 None ltac:(lra) ltac:(lia) ltac:(discriminate)) as EE.
  destruct (C49_grid 100 300 3 ltac:(lia) ltac:(lra)) as (LL & _).
  unfold main_. cbn [in_A in_Z in_energy in_materials in_config]. rewrite EE. cbn [bind map]. rewrite JM. cbn [all_some option_map].
  set (p := mkProj 12 6 (lit 0) (lit 0)). assert (LP : legit_p p) by (split; cbn; lra).
  assert (G : forall es w, world_ok w -> exists rs w', length rs = length es /\ run_energies junk0 p [mat] es w = Ok (rs, w')).
  { induction es as [|e es IH]; intros w W; [exists [], w; split; reflexivity|].
    destruct (no_thickness junk0 (at_T p e) mat (w_default w) w LP LT W eq_refl) as (r & w1 & C & W1).
    destruct (IH w1 W1) as (rs & w2 & L & RE).
    cbn [run_energies]. unfold calculate_layers. cbn [layers_loop]. change (pT (at_T p e)) with e. change (at_T (at_T p e) e) with (at_T p e).
    rewrite C. cbn [bind]. rewrite RE. cbn [bind]. eexists. exists w2. split; [|reflexivity]. cbn [length]. rewrite L. reflexivity. }
  destruct (G (linspace_vector 100 300 3) world0 world_ok0) as (rs & w & L & RE). rewrite LL in L.
  destruct (linspace_vector 100 300 3) as [|e es] eqn:EL; [discriminate LL|]. rewrite RE. cbn [bind].
  exists rs, w. split; [exact L|reflexivity].
Qed.

(** ** C51: magnification *)
Theorem C51_nothing {F} {N : Num F} (junk : nat -> F * F) p E t c w : fleb (m_rho t) (lit 0.0) = true \/ fleb (m_th t) (lit 0) = true ->
  w_magnification junk p E t c w = Ok ((lit 1.0, lit 1.0), w).
Proof. intros H. unfold w_magnification. destruct H as [-> | ->]; [|rewrite orb_true_r]; reflexivity. Qed.
Print Assumptions C51_nothing.

(** the outgoing energies at 0.99 E, E, 1.01 E (catima::energy_out; 0 below the table) *)
Definition leaves (junk : nat -> R * R) (p : Projectile R) (t : Material R) (c : Config R) (w : world R) (e x : R) : Prop :=
  if Rlt_dec e (1 / 1000) then x = 0 else omap fst (energy_out junk (at_T p e) t c w) = Ok x.
Definition momentum (p : Projectile R) (T : R) : R := pA p * sqrt (T * (T + 2 * atomic_mass_unit)).
Lemma momentum_p p T : p_from_T T (pA p) = momentum p T.
Proof. unfold p_from_T, momentum. numR. replace (Rlit 2) with 2 by (dec_norm; lra). apply Rmult_comm. Qed.
Theorem C51_slope (junk : nat -> R * R) h w p E t c r w' : exec_all junk h world0 = Ok w -> 0 < m_rho t -> 0 < m_th t ->
  w_magnification junk p E t c w = Ok (r, w') ->
  exists lo mid hi,
    leaves junk p t c w (0.99 * E) lo /\ leaves junk p t c w E mid /\ leaves junk p t c w (1.01 * E) hi /\
    (0 < lo -> 0 < mid -> 0 < hi ->
      r = (E * (hi - lo) / (mid * (1.01 * E - 0.99 * E)),
           momentum p E * (momentum p hi - momentum p lo) / (momentum p mid * (momentum p (1.01 * E) - momentum p (0.99 * E))))) /\
    (lo <= 0 \/ mid <= 0 \/ hi <= 0 -> r = (0, 0)).
Proof.
  intros EH RH TH M. unfold w_magnification in M.
  assert (L99 : (lit 0.99 : R) = 0.99) by (numR; dec_norm; lra). assert (L101 : (lit 1.01 : R) = 1.01) by (numR; dec_norm; lra).
  rewrite ?lit0R, ?lit0R', ?lit1R, L99, L101 in M. numR.
  destruct (Rleb_spec (m_rho t) 0); [lra|]. destruct (Rleb_spec (m_th t) 0); [lra|]. cbn [orb] in M.
  apply bind_ok in M. destruct M as ([l w1] & EO & M).
  destruct (C11_energy_out junk h w p [0.99 * E; E; 1.01 * E] t c l w1 EH EO) as (LL & LN).
  destruct l as [|lo [|mid [|hi [|? ?]]]]; try discriminate LL. clear LL.
  change (aget [lo; mid; hi] 0) with (Ok lo) in M. change (aget [lo; mid; hi] 1) with (Ok mid) in M. change (aget [lo; mid; hi] 2) with (Ok hi) in M. cbn [bind] in M.
  assert (LV : forall i e x, nth_error [0.99 * E; E; 1.01 * E] i = Some e -> nth_error [lo; mid; hi] i = Some x -> leaves junk p t c w e x).
  { intros i e x I X. destruct (LN i e I) as (y & Y & V). rewrite X in Y. injection Y as <-. unfold leaves.
    rewrite Ezero_R, lit0R' in V. numR. destruct (Rltb_spec e (1 / 1000)), (Rlt_dec e (1 / 1000)); try lra; exact V. }
  exists lo, mid, hi. split; [apply (LV 0%nat); reflexivity|]. split; [apply (LV 1%nat); reflexivity|]. split; [apply (LV 2%nat); reflexivity|].
  rewrite !momentum_p in M.
  split.
  - intros P0 P1 P2. destruct (Rltb_spec 0 lo); [|lra]. destruct (Rltb_spec 0 mid); [|lra]. destruct (Rltb_spec 0 hi); [|lra].
    cbn [andb] in M. injection M as <- _. reflexivity.
  - intros N. destruct (Rltb_spec 0 lo), (Rltb_spec 0 mid), (Rltb_spec 0 hi); try lra; cbn [andb] in M; injection M as <- _; reflexivity.
Qed.
Print Assumptions C51_slope.

Lemma momentum_pos p T : 0 < pA p -> 0 < T -> 0 < momentum p T.
Proof. intros A T0. unfold momentum. rewrite u0_eq. pose proof u0_pos. apply Rmult_lt_0_compat; [exact A|]. apply sqrt_lt_R0. nra. Qed.
Lemma momentum_mono p T T' : 0 < pA p -> 0 < T < T' -> momentum p T < momentum p T'.
Proof. intros A B. unfold momentum. rewrite u0_eq. pose proof u0_pos. apply Rmult_lt_compat_l; [exact A|]. apply sqrt_lt_1; nra. Qed.
(** a layer that takes nothing away magnifies by 1 *)
Theorem C51_identity (junk : nat -> R * R) h w p E t c r w' : exec_all junk h world0 = Ok w -> 0 < m_rho t -> 0 < m_th t -> 0 < pA p -> 1 / 990 < E ->
  (forall e, In e [0.99 * E; E; 1.01 * E] -> omap fst (energy_out junk (at_T p e) t c w) = Ok e) ->
  w_magnification junk p E t c w = Ok (r, w') -> r = (1, 1).
Proof.
  intros EH RH TH A E0 ID M. destruct (C51_slope junk h w p E t c r w' EH RH TH M) as (lo & mid & hi & V0 & V1 & V2 & S & _).
  assert (L : forall e x, 1 / 1000 <= e -> In e [0.99 * E; E; 1.01 * E] -> leaves junk p t c w e x -> x = e).
  { intros e x B I V. unfold leaves in V. destruct (Rlt_dec e (1 / 1000)); [lra|]. rewrite (ID e I) in V. congruence. }
  apply L in V0; [|lra|cbn; auto]. apply L in V1; [|lra|cbn; auto]. apply L in V2; [|lra|cbn; auto]. subst lo mid hi.
  rewrite S by lra. pose proof (momentum_pos p E A ltac:(lra)). pose proof (momentum_mono p (0.99 * E) (1.01 * E) A ltac:(lra)).
  f_equal; field; lra.
Qed.
Print Assumptions C51_identity.
(** a layer that passes a fixed fraction of the energy leaves relative spreads alone *)
Theorem C51_proportional (junk : nat -> R * R) h w p E t c r w' k : exec_all junk h world0 = Ok w -> 0 < m_rho t -> 0 < m_th t -> 1 / 990 < E -> 0 < k ->
  (forall e, In e [0.99 * E; E; 1.01 * E] -> omap fst (energy_out junk (at_T p e) t c w) = Ok (k * e)) ->
  w_magnification junk p E t c w = Ok (r, w') -> fst r = 1.
Proof.
  intros EH RH TH E0 K ID M. destruct (C51_slope junk h w p E t c r w' EH RH TH M) as (lo & mid & hi & V0 & V1 & V2 & S & _).
  assert (L : forall e x, 1 / 1000 <= e -> In e [0.99 * E; E; 1.01 * E] -> leaves junk p t c w e x -> x = k * e).
  { intros e x B I V. unfold leaves in V. destruct (Rlt_dec e (1 / 1000)); [lra|]. rewrite (ID e I) in V. congruence. }
  apply L in V0; [|lra|cbn; auto]. apply L in V1; [|lra|cbn; auto]. apply L in V2; [|lra|cbn; auto]. subst lo mid hi.
  rewrite S by nra. cbn [fst]. field. lra.
Qed.
Print Assumptions C51_proportional.
(** in general the first number is the logarithmic slope E f'(x) / f(E) of the transfer f at some
    energy x within one percent of E *)
Theorem C51_derivative (junk : nat -> R * R) h w p E t c r w' f f' : exec_all junk h world0 = Ok w -> 0 < m_rho t -> 0 < m_th t -> 1 / 990 < E ->
  (forall e, 0.99 * E <= e <= 1.01 * E -> derivable_pt_lim f e (f' e)) ->
  (forall e, In e [0.99 * E; E; 1.01 * E] -> omap fst (energy_out junk (at_T p e) t c w) = Ok (f e) /\ 0 < f e) ->
  w_magnification junk p E t c w = Ok (r, w') ->
  exists x, 0.99 * E < x < 1.01 * E /\ fst r = E * f' x / f E.
Proof.
  intros EH RH TH E0 D ID M. destruct (C51_slope junk h w p E t c r w' EH RH TH M) as (lo & mid & hi & V0 & V1 & V2 & S & _).
  assert (L : forall e x, 1 / 1000 <= e -> In e [0.99 * E; E; 1.01 * E] -> leaves junk p t c w e x -> x = f e /\ 0 < x).
  { intros e x B I V. unfold leaves in V. destruct (Rlt_dec e (1 / 1000)); [lra|]. destruct (ID e I) as [I1 I2]. rewrite I1 in V. split; [congruence|]. replace x with (f e) by congruence. exact I2. }
  apply L in V0; [|lra|cbn; auto]. apply L in V1; [|lra|cbn; auto]. apply L in V2; [|lra|cbn; auto].
  destruct (MVT_cor2 f f' (0.99 * E) (1.01 * E) ltac:(lra) D) as (x & MV & B). exists x. split; [exact B|].
  rewrite S by tauto. cbn [fst]. destruct V0 as [-> _], V1 as [-> P1], V2 as [-> _]. rewrite MV. field. split; lra.
Qed.
Print Assumptions C51_derivative.
Example C51_case : exists w r w', exec_all junk0 history1 world0 = Ok w /\ w_magnification junk0 (carbon 300) 300 (water 2) conf w = Ok (r, w').
Proof.
  destruct history1_total as (w & E & W). destruct (w_magnification_good junk0 (carbon 300) 300 (water 2) conf w) as (r & w' & M & _); auto with cases.
  exists w, r, w'. auto.
Qed.
