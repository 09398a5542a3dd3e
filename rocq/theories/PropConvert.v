(** * C58: the MOCADI input file *)
From Coq Require Import ZArith QArith Reals Qreals Ascii String List Bool Lra Lia.
From Verif Require Import Num NumR Structures DataMaterials NucData SpecData DataProofs PropData Convert.
Import ListNotations.
Local Open Scope string_scope.
Local Open Scope list_scope.

(** ** Specification: how such a file is read *)
(** the pieces of s between the characters c *)
Fixpoint split (c : ascii) (s : string) : list string :=
  match s with
  | "" => [""]
  | String x s' => if Ascii.eqb x c then "" :: split c s' else match split c s' with h :: t => String x h :: t | [] => [String x ""] end
  end.
Definition newline : ascii := ascii_of_nat 10.
Fixpoint without_spaces (s : string) : string :=
  match s with "" => "" | String x s' => if Ascii.eqb x " " then without_spaces s' else String x (without_spaces s') end.
Definition lines (s : string) : list string := split newline s.
Definition fields (s : string) : list string := map without_spaces (split "," s).
(** the two lines after each line MATTER *)
Fixpoint matter (l : list string) : list (list string * list string) :=
  match l with
  | [] => []
  | x :: r => if String.eqb x "MATTER" then match r with a :: t :: _ => (fields a, fields t) :: matter r | _ => [] end else matter r
  end.
(** a decimal number: value without the point, digits after the point *)
Definition digit_value (c : ascii) : option Z := let n := (Z.of_nat (nat_of_ascii c) - 48)%Z in if ((0 <=? n) && (n <=? 9))%Z then Some n else None.
Fixpoint read_unsigned (acc : Z) (frac : option nat) (s : string) : option (Z * nat) :=
  match s with
  | "" => Some (acc, match frac with Some k => k | None => O end)
  | String c s' =>
      match digit_value c with
      | Some d => read_unsigned (10 * acc + d) (option_map S frac) s'
      | None => if Ascii.eqb c "." then match frac with None => read_unsigned acc (Some O) s' | Some _ => None end else None
      end
  end.
Definition number_of (x : option (Z * nat)) : option R := option_map (fun mk => (IZR (fst mk) / 10 ^ snd mk)%R) x.
Definition read_number (s : string) : option R :=
  match s with
  | String c s' => if Ascii.eqb c "-" then option_map Ropp (number_of (read_unsigned 0 None s')) else number_of (read_unsigned 0 None s)
  | "" => None
  end.

(** "%f": nearest multiple of 10^-6, the even one if there are two *)
Definition round_even (y : R) : Z :=
  let f := Rfloor_Z y in
  if Rltb (y - IZR f) (1 / 2) then f else if Rltb (1 / 2) (y - IZR f) then (f + 1)%Z else if Z.even f then f else (f + 1)%Z.
Definition show6 (x : R) : string :=
  let n := round_even (Rabs x * 1000000) in
  ((if Rltb x 0 then "-" else "") ++ show_nonneg (n / 1000000) ++ "." ++ digits 6 (n mod 1000000))%string.

(** ** Splitting *)
Fixpoint free (c : ascii) (s : string) : bool := match s with "" => true | String x s' => negb (Ascii.eqb x c) && free c s' end.
Definition pre (a : string) (l : list string) : list string := match l with h :: t => (a ++ h)%string :: t | [] => [a] end.
Lemma split_not_nil c s : split c s <> [].
Proof. destruct s as [|x s]; cbn; [discriminate|]. destruct (Ascii.eqb x c); [discriminate|]. destruct (split c s); discriminate. Qed.
Lemma split_app c a s : free c a = true -> split c (a ++ s)%string = pre a (split c s).
Proof.
  induction a as [|x a IH]; intros H.
  - cbn. destruct (split c s) eqn:E; [now apply split_not_nil in E|reflexivity].
  - cbn in H. apply andb_true_iff in H. destruct H as [H1 H2]. apply negb_true_iff in H1. cbn [append split]. rewrite H1, (IH H2).
    destruct (split c s) eqn:E; [now apply split_not_nil in E|]. reflexivity.
Qed.
Lemma split_at c s : split c (String c s) = "" :: split c s.
Proof. cbn. now rewrite Ascii.eqb_refl. Qed.
Lemma split_end c a : free c a = true -> split c a = [a].
Proof.
  intros H. assert (R : forall x : string, (x ++ "")%string = x) by (induction x as [|y x IH]; [reflexivity|cbn; now rewrite IH]).
  rewrite <- (R a) at 1. rewrite (split_app c a "" H). cbn. now rewrite R.
Qed.
Lemma free_app c a b : free c (a ++ b)%string = free c a && free c b.
Proof. induction a as [|x a IH]; [reflexivity|]. cbn. now rewrite IH, andb_assoc. Qed.
Lemma spaces_app a b : without_spaces (a ++ b)%string = (without_spaces a ++ without_spaces b)%string.
Proof. induction a as [|x a IH]; [reflexivity|]. cbn. destruct (Ascii.eqb x " "); [exact IH|]. cbn. now rewrite IH. Qed.
Lemma spaces_free a : free " " a = true -> without_spaces a = a.
Proof. induction a as [|x a IH]; [reflexivity|]. cbn. intros H. apply andb_true_iff in H. destruct H as [H1 H2]. apply negb_true_iff in H1. rewrite H1. now rewrite IH. Qed.
Definition clean (s : string) : bool := free newline s && free "," s && free " " s.
Lemma clean_free s : clean s = true -> free newline s = true /\ free "," s = true /\ without_spaces s = s.
Proof. unfold clean. rewrite !andb_true_iff. intros ((A & B) & C). split; [exact A|]. split; [exact B|]. now apply spaces_free. Qed.
Lemma comma_not_matter s : free "," s = false -> String.eqb s "MATTER" = false.
Proof. intros H. apply String.eqb_neq. intros ->. discriminate. Qed.

(** ** Numbers *)
Lemma digit_read d : (0 <= d < 10)%Z -> digit_value (digit d) = Some d /\ clean (String (digit d) "") = true /\ Ascii.eqb (digit d) "-" = false.
Proof.
  intros H. assert (C : (d = 0 \/ d = 1 \/ d = 2 \/ d = 3 \/ d = 4 \/ d = 5 \/ d = 6 \/ d = 7 \/ d = 8 \/ d = 9)%Z) by lia.
  repeat (destruct C as [->|C]; [now vm_compute|]). subst d. now vm_compute.
Qed.
Lemma append_assoc (a b c : string) : ((a ++ b) ++ c)%string = (a ++ b ++ c)%string.
Proof. induction a as [|x a IH]; [reflexivity|]. cbn. now rewrite IH. Qed.
Lemma digits_read k : forall n acc fr s, read_unsigned acc fr (digits k n ++ s)%string = read_unsigned (acc * 10 ^ Z.of_nat k + n mod 10 ^ Z.of_nat k) (option_map (Nat.add k) fr) s.
Proof.
  induction k as [|k IH]; intros n acc fr s.
  - cbn [digits append]. rewrite Z.pow_0_r, Z.mod_1_r. replace (acc * 1 + 0)%Z with acc by ring. destruct fr; reflexivity.
  - cbn [digits]. rewrite append_assoc, IH. cbn [append read_unsigned]. destruct (digit_read (n mod 10) ltac:(apply Z.mod_pos_bound; lia)) as (-> & _). f_equal.
    + rewrite Nat2Z.inj_succ, Z.pow_succ_r by lia. rewrite (Z.rem_mul_r n 10 (10 ^ Z.of_nat k)) by (try lia; apply Z.pow_nonzero; lia). ring.
    + destruct fr; reflexivity.
Qed.
Lemma digits_clean k : forall n, clean (digits k n) = true.
Proof.
  induction k as [|k IH]; intros n; [reflexivity|]. cbn [digits]. destruct (digit_read (n mod 10) ltac:(apply Z.mod_pos_bound; lia)) as (_ & D & _).
  specialize (IH (n / 10)%Z). unfold clean in *. rewrite !free_app. rewrite !andb_true_iff in *. tauto.
Qed.
Lemma digit_count_ok fuel : forall n, (0 <= n < 2 ^ Z.of_nat fuel)%Z -> (n < 10 ^ Z.of_nat (digit_count fuel n))%Z.
Proof.
  induction fuel as [|fuel IH]; intros n H.
  - cbn in *. lia.
  - cbn [digit_count]. destruct (Z.ltb_spec n 10) as [L|L]; [cbn; lia|]. rewrite Nat2Z.inj_succ, Z.pow_succ_r in * by lia.
    specialize (IH (n / 10)%Z). assert (H0 : (0 <= n / 10 < 2 ^ Z.of_nat fuel)%Z) by (split; [apply Z.div_pos; lia|apply Z.div_lt_upper_bound; lia]). specialize (IH H0).
    pose proof (Z.mul_div_le n 10 ltac:(lia)). pose proof (Z.mod_pos_bound n 10 ltac:(lia)). pose proof (Z.div_mod n 10 ltac:(lia)). lia.
Qed.
Lemma digit_count_pos fuel n : exists k, digit_count fuel n = S k.
Proof. destruct fuel; cbn; [now exists O|]. destruct (n <? 10)%Z; eexists; reflexivity. Qed.
Lemma nonneg_read n acc fr s : (0 <= n)%Z -> exists k, read_unsigned acc fr (show_nonneg n ++ s)%string = read_unsigned (acc * 10 ^ Z.of_nat k + n) (option_map (Nat.add k) fr) s.
Proof.
  intros H. unfold show_nonneg. set (fuel := Z.to_nat (Z.log2 n + 1)). exists (digit_count fuel n). rewrite digits_read, Z.mod_small; [reflexivity|]. split; [exact H|].
  apply digit_count_ok. split; [exact H|]. unfold fuel. pose proof (Z.log2_nonneg n). rewrite Z2Nat.id by lia. destruct (Z.eq_dec n 0) as [->|N]; [reflexivity|]. rewrite Z.add_1_r. apply Z.log2_spec. lia.
Qed.
Lemma nonneg_clean n : clean (show_nonneg n) = true.
Proof. apply digits_clean. Qed.
Lemma digits_start k n : exists c s, digits (S k) n = String c s /\ Ascii.eqb c "-" = false.
Proof.
  revert n. induction k as [|k IH]; intros n.
  - cbn. eexists. eexists. split; [reflexivity|]. apply digit_read. apply Z.mod_pos_bound. lia.
  - destruct (IH (n / 10)%Z) as (c & s & E & D). change (digits (S (S k)) n) with (digits (S k) (n / 10) ++ String (digit (n mod 10)) "")%string. rewrite E. cbn. eexists. eexists. split; [reflexivity|exact D].
Qed.
Lemma nonneg_start n : exists c s, show_nonneg n = String c s /\ Ascii.eqb c "-" = false.
Proof. unfold show_nonneg. destruct (digit_count_pos (Z.to_nat (Z.log2 n + 1)) n) as [k ->]. apply digits_start. Qed.
Lemma int_clean n : clean (show_int n) = true.
Proof.
  unfold show_int. pose proof (nonneg_clean (- n)) as A. destruct (n <? 0)%Z; [|apply nonneg_clean]. unfold clean in *. cbn [free]. rewrite !andb_true_iff in *. cbn. tauto.
Qed.
Lemma append_nil (a : string) : (a ++ "")%string = a.
Proof. induction a as [|x a IH]; [reflexivity|]. cbn. now rewrite IH. Qed.
Lemma nonneg_number n : (0 <= n)%Z -> read_number (show_nonneg n) = Some (IZR n).
Proof.
  intros H. destruct (nonneg_start n) as (c & s & E & D). destruct (nonneg_read n 0 None "" H) as [k K]. rewrite append_nil in K. rewrite E in *. cbn [read_number]. rewrite D, K.
  cbn [option_map read_unsigned number_of fst snd pow]. rewrite Z.mul_0_l, Z.add_0_l. f_equal. unfold Rdiv. now rewrite Rinv_1, Rmult_1_r.
Qed.
Lemma int_number n : read_number (show_int n) = Some (IZR n).
Proof.
  unfold show_int. destruct (Z.ltb_spec n 0) as [L|L]; [|now apply nonneg_number]. cbn [read_number]. replace (Ascii.eqb "-" "-") with true by reflexivity.
  destruct (nonneg_read (- n) 0 None "" ltac:(lia)) as [k K]. rewrite append_nil in K. rewrite K. cbn [option_map read_unsigned number_of fst snd pow]. rewrite Z.mul_0_l, Z.add_0_l, opp_IZR. f_equal. field.
Qed.
Local Open Scope R_scope.
Lemma round_even_near y : 0 <= y -> (0 <= round_even y)%Z /\ Rabs (IZR (round_even y) - y) <= 1 / 2.
Proof.
  intros H. unfold round_even. destruct (Rfloor_bound y) as [A B]. set (f := Rfloor_Z y) in *. assert (F0 : (0 <= f)%Z) by (apply Z.lt_succ_r, lt_IZR; rewrite succ_IZR; lra).
  destruct (Rltb_spec (y - IZR f) (1 / 2)); [split; [exact F0|apply Rabs_le; lra]|].
  destruct (Rltb_spec (1 / 2) (y - IZR f)); [split; [lia|rewrite plus_IZR; apply Rabs_le; lra]|].
  destruct (Z.even f); (split; [lia|]); rewrite ?plus_IZR; apply Rabs_le; lra.
Qed.
(** six decimals: the number read back differs by at most half a unit of the last digit *)
Lemma show6_number x : exists v, read_number (show6 x) = Some v /\ Rabs (v - x) <= 5 / 10000000.
Proof.
  unfold show6. destruct (round_even_near (Rabs x * 1000000) ltac:(pose proof (Rabs_pos x); lra)) as [N0 N]. set (n := round_even (Rabs x * 1000000)) in *.
  assert (Q0 : (0 <= n / 1000000)%Z) by (apply Z.div_pos; lia).
  assert (RD : read_unsigned 0 None (show_nonneg (n / 1000000) ++ "." ++ digits 6 (n mod 1000000))%string = Some (n, 6%nat)).
  { destruct (nonneg_read (n / 1000000) 0 None ("." ++ digits 6 (n mod 1000000)) Q0) as [k ->]. rewrite Z.mul_0_l, Z.add_0_l. cbn [append read_unsigned option_map].
    replace (digit_value ".") with (@None Z) by reflexivity. replace (Ascii.eqb "." ".") with true by reflexivity. rewrite <- (append_nil (digits 6 _)), digits_read. cbn [read_unsigned option_map Nat.add].
    change (10 ^ Z.of_nat 6)%Z with 1000000%Z. rewrite Z.mod_mod by lia. f_equal. f_equal. pose proof (Z.div_mod n 1000000 ltac:(lia)). lia. }
  assert (V : Rabs (IZR n / 10 ^ 6 - Rabs x) <= 5 / 10000000).
  { pose proof (Rle_abs (IZR n - Rabs x * 1000000)) as A. pose proof (Rle_abs (- (IZR n - Rabs x * 1000000))) as B. rewrite Rabs_Ropp in B. apply Rabs_le. lra. }
  destruct (Rltb_spec x 0) as [L|L].
  - exists (- (IZR n / 10 ^ 6)). split.
    + cbn [append read_number]. replace (Ascii.eqb "-" "-") with true by reflexivity. change (String "." (digits 6 (n mod 1000000))) with ("." ++ digits 6 (n mod 1000000))%string. rewrite RD. reflexivity.
    + rewrite (Rabs_left x L) in V. replace (- (IZR n / 10 ^ 6) - x) with (- (IZR n / 10 ^ 6 - - x)) by ring. rewrite Rabs_Ropp. exact V.
  - exists (IZR n / 10 ^ 6). split; [|rewrite (Rabs_right x) in V by lra; exact V]. change ("" ++ show_nonneg (n / 1000000) ++ "." ++ digits 6 (n mod 1000000))%string with (show_nonneg (n / 1000000) ++ "." ++ digits 6 (n mod 1000000))%string.
    destruct (nonneg_start (n / 1000000)) as (c & s & E & D). rewrite E in *. change (String c s ++ "." ++ digits 6 (n mod 1000000))%string with (String c (s ++ "." ++ digits 6 (n mod 1000000))) in *. cbn [read_number]. rewrite D, RD. reflexivity.
Qed.
Lemma show6_clean x : clean (show6 x) = true.
Proof.
  unfold show6. pose proof (nonneg_clean (round_even (Rabs x * 1000000) / 1000000)) as A. pose proof (digits_clean 6 (round_even (Rabs x * 1000000) mod 1000000)) as B.
  unfold clean in *. rewrite !free_app. rewrite !andb_true_iff in *. destruct (Rltb x 0); cbn; tauto.
Qed.
Local Close Scope R_scope.

(** ** The file *)
Lemma lines_app a s : free newline a = true -> lines (a ++ s)%string = pre a (lines s).
Proof. apply split_app. Qed.
Lemma lines_nl s : lines (nl ++ s)%string = "" :: lines s.
Proof. unfold lines, nl. cbn [append]. apply split_at. Qed.
Lemma comma_sep s : split "," (", " ++ s)%string = "" :: pre " " (split "," s).
Proof. change (", " ++ s)%string with (String "," (" " ++ s)). now rewrite split_at, split_app by reflexivity. Qed.
Lemma free_comma_app a b : free "," (a ++ ", " ++ b)%string = false.
Proof. rewrite !free_app. cbn. now rewrite andb_false_r. Qed.
Lemma pre_not_nil a l : pre a l <> [].
Proof. destruct l; discriminate. Qed.
Definition first_line (l : list string) : string := match l with [] => "" | h :: _ => h end.

Section File.
  Context {F : Type} {N : Num F} (show : F -> string) (C : forall x, clean (show x) = true).
  Lemma show_nl x : free newline (show x) = true.  Proof. apply clean_free, C. Qed.
  Lemma show_comma x : free "," (show x) = true.  Proof. apply clean_free, C. Qed.
  Lemma show_id x : without_spaces (show x) = show x.  Proof. apply clean_free, C. Qed.
  Lemma int_nl n : free newline (show_int n) = true.  Proof. apply clean_free, int_clean. Qed.
  Lemma int_comma n : free "," (show_int n) = true.  Proof. apply clean_free, int_clean. Qed.
  Lemma int_id n : without_spaces (show_int n) = show_int n.  Proof. apply clean_free, int_clean. Qed.

  Definition layer_block (m : Material F) (az : F * Z) : list string * list string :=
    ([show (fst az); show_int (snd az); show (fmul (m_rho m) (lit 1000.0))], ["2"; show (thickness_cm m)]).

  Lemma block_lines m az s : mocadi_layer m = Ok az ->
    exists b, mocadi_block show m = Ok b /\
      lines (b ++ s)%string = ["*******"; "MATTER"; (show (fst az) ++ ", " ++ show_int (snd az) ++ ", " ++ show (fmul (m_rho m) (lit 1000.0)))%string;
                               ("2," ++ show (thickness_cm m))%string; "0."; "0.,0.,0."; "1,1,0"; "0,0,0,0"] ++ lines s.
  Proof.
    intros H. unfold mocadi_block. rewrite H. cbn [bind]. eexists. split; [reflexivity|]. rewrite !append_assoc.
    repeat first [rewrite lines_nl | rewrite (lines_app (show _)) by apply show_nl | rewrite (lines_app (show_int _)) by apply int_nl | rewrite lines_app by reflexivity].
    cbn [pre app]. now rewrite !append_nil.
  Qed.
  Lemma fields_target a z r : fields (show a ++ ", " ++ show_int z ++ ", " ++ show r)%string = [show a; show_int z; show r].
  Proof.
    unfold fields. rewrite split_app by apply show_comma. rewrite comma_sep. rewrite split_app by apply int_comma. rewrite comma_sep, (split_end _ (show r)) by apply show_comma.
    cbn [pre map]. rewrite !append_nil, !spaces_app, !show_id, int_id. reflexivity.
  Qed.
  Lemma fields_thickness t : fields ("2," ++ show t)%string = ["2"; show t].
  Proof. unfold fields. change ("2," ++ show t)%string with ("2" ++ String "," (show t))%string. rewrite split_app by reflexivity. rewrite split_at, split_end by apply show_comma. cbn [pre map]. rewrite show_id. reflexivity. Qed.
  Lemma matter_skip x l : String.eqb x "MATTER" = false -> matter (x :: l) = matter l.
  Proof. intros H. cbn [matter]. now rewrite H. Qed.

  Lemma matter_block m az s p b : mocadi_layer m = Ok az -> mocadi_block show m = Ok b -> String.eqb (p ++ "*******") "MATTER" = false ->
    matter (pre p (lines (b ++ s)%string)) = layer_block m az :: matter (lines s).
  Proof.
    intros H B P. destruct (block_lines m az s H) as (b' & B' & E). assert (b' = b) by congruence. subst b'. rewrite E. cbn [pre app]. rewrite matter_skip by exact P.
    match goal with |- matter (?x :: ?a :: ?t :: ?r) = _ => change (matter (x :: a :: t :: r)) with ((fields a, fields t) :: matter (a :: t :: r)) end.
    rewrite fields_target, fields_thickness. unfold layer_block. f_equal. rewrite matter_skip by (apply comma_not_matter, free_comma_app). now rewrite !matter_skip by reflexivity.
  Qed.

  Lemma matter_blocks : forall l bs t, mocadi_blocks show l = Ok bs -> matter (lines t) = [] ->
    exists azs, Forall2 (fun m az => mocadi_layer m = Ok az) l azs /\ matter (lines (bs ++ t)%string) = map (fun maz => layer_block (fst maz) (snd maz)) (combine l azs).
  Proof.
    induction l as [|m l IH]; intros bs t H T.
    - injection H as <-. exists []. split; [constructor|exact T].
    - cbn [mocadi_blocks] in H. destruct (mocadi_block show m) as [b|] eqn:B; [|discriminate]. destruct (mocadi_blocks show l) as [r|] eqn:E; [|discriminate]. cbn [bind] in H. injection H as <-.
      destruct (mocadi_layer m) as [az|] eqn:A; [|unfold mocadi_block in B; rewrite A in B; discriminate].
      destruct (IH r t eq_refl T) as (azs & Q & M). exists (az :: azs). split; [now constructor|]. rewrite append_assoc. cbn [combine map fst snd]. rewrite <- M.
      rewrite <- (matter_block m az (r ++ t) "" b A B eq_refl). destruct (lines (b ++ r ++ t)%string) eqn:L; [now apply split_not_nil in L|reflexivity].
  Qed.

  Lemma first_blocks l bs t : mocadi_blocks show l = Ok bs -> first_line (lines t) <> "MATTER" -> first_line (lines (bs ++ t)%string) <> "MATTER".
  Proof.
    destruct l as [|m l]; intros H T; [injection H as <-; exact T|]. cbn [mocadi_blocks] in H. destruct (mocadi_block show m) as [b|] eqn:B; [|discriminate].
    destruct (mocadi_blocks show l) as [r|] eqn:E; [|discriminate]. cbn [bind] in H. injection H as <-.
    destruct (mocadi_layer m) as [az|] eqn:A; [|unfold mocadi_block in B; rewrite A in B; discriminate].
    rewrite append_assoc. destruct (block_lines m az (r ++ t) A) as (b' & B' & X). assert (b' = b) by congruence. subst b'. rewrite X. discriminate.
  Qed.
  Lemma matter_prefix p l : free "," p = false -> first_line l <> "MATTER" -> matter (pre p l) = matter l.
  Proof.
    intros P H. destruct l as [|h t]; cbn [pre first_line] in *; [now rewrite matter_skip by now apply comma_not_matter|].
    rewrite !matter_skip; [reflexivity|now apply String.eqb_neq|]. apply comma_not_matter. rewrite free_app, P. reflexivity.
  Qed.
End File.
Lemma ok_pair {A B} (a c : A) (b d : B) : Ok (a, b) = Ok (c, d) -> a = c /\ b = d.
Proof. intros H. injection H as -> ->. now split. Qed.
Definition tail_text : string := ("ERWARTUNGSWERTE" ++ nl ++ "SAVE" ++ nl ++ "END")%string.
(** the line of the beam: energy, mass, charge; sizes and angles in the two planes *)
Definition beam_lines {F} {N : Num F} (show : F -> string) (p : Projectile F) (psx psy : Phasespace F) : list string :=
  ["epax 2"; "atima-1.0"; "option listmode root"; "BEAM"; "100000"; (show (pT p) ++ ", 0, " ++ show (pA p) ++ ", " ++ show (pZ p))%string; "2";
   (show (ps_sigma_x psx) ++ ", " ++ show (fmul (lit 1000) (ps_sigma_a psx)) ++ ", 0, 0, 0")%string; "2";
   (show (ps_sigma_x psy) ++ ", " ++ show (fmul (lit 1000) (ps_sigma_a psy)) ++ ", 0, 0, 0")%string; "1"].
Lemma file_lines {F} {N : Num F} (show : F -> string) (C : forall x, clean (show x) = true) p layers psx psy r s : save_mocadi show true p layers psx psy = Ok (r, s) ->
  r = true /\ exists bs, mocadi_blocks show layers = Ok bs /\ lines s = beam_lines show p psx psy ++ pre "0,  0, 0, 0, 0" (lines (bs ++ tail_text)%string).
Proof.
  intros H. unfold save_mocadi in H. cbn [negb] in H. destruct (mocadi_blocks show layers) as [bs|] eqn:B; [|discriminate]. cbn [bind] in H. apply ok_pair in H. destruct H as [<- <-]. split; [reflexivity|].
  exists bs. split; [reflexivity|]. fold tail_text. unfold mocadi_header, mocadi_beam. rewrite !append_assoc.
  repeat first [rewrite lines_nl | rewrite (lines_app (show _)) by (apply show_nl, C) | rewrite (lines_app (String _ _)) by reflexivity].
  cbn [pre app]. unfold beam_lines. now rewrite !append_nil.
Qed.

(** ** C58: reading the file gives back the layers, one block each, in order *)
Theorem C58_blocks {F} {N : Num F} (show : F -> string) p layers psx psy r s : (forall x, clean (show x) = true) -> save_mocadi show true p layers psx psy = Ok (r, s) ->
  r = true /\
  Forall2 (fun m b => exists a z, b = ([show a; show_int z; show (fmul (m_rho m) (lit 1000.0))], ["2"; show (fdiv (m_th m) (m_rho m))]) /\
             ((exists t, m_atoms m = [t] /\ a = tA t /\ z = tZ t) \/ (length (m_atoms m) <> 1%nat /\ a = lit 0.0 /\ z = materialdb_id m)))
    layers (matter (lines s)).
Proof.
  intros C H. destruct (file_lines show C _ _ _ _ _ _ H) as (-> & bs & B & ->). split; [reflexivity|].
  destruct (matter_blocks show C layers bs tail_text B eq_refl) as (azs & A & M).
  unfold beam_lines. cbn [app]. rewrite !matter_skip by (reflexivity || apply comma_not_matter, free_comma_app).
  rewrite matter_prefix; [|reflexivity|apply (first_blocks show C layers bs tail_text B); discriminate]. rewrite M. clear H M B.
  induction A as [|m az l azs H1 A IH]; [constructor|]. cbn [combine map fst snd]. constructor; [|exact IH]. exists (fst az), (snd az). split; [reflexivity|].
  unfold mocadi_layer, ncomponents, get_element in H1. destruct (Z.eqb_spec (Z.of_nat (length (m_atoms m))) 1) as [E|E].
  - left. destruct (m_atoms m) as [|t [|t2 u]]; cbn [length] in E; try lia. exists t. cbn in H1. injection H1 as <-. now repeat split.
  - right. injection H1 as <-. split; [lia|now split].
Qed.
Print Assumptions C58_blocks.

(** whatever is in the layers, the file is written completely; if it cannot be opened nothing is written *)
Theorem C58_written {F} {N : Num F} (show : F -> string) p layers psx psy :
  (exists s, save_mocadi show true p layers psx psy = Ok (true, s)) /\ save_mocadi show false p layers psx psy = Ok (false, "").
Proof.
  split; [|reflexivity]. unfold save_mocadi. cbn [negb].
  assert (E : exists bs, mocadi_blocks show layers = Ok bs).
  { induction layers as [|m l (bs & IH)]; [now exists ""|]. cbn [mocadi_blocks]. rewrite IH. unfold mocadi_block.
    assert (A : exists az, mocadi_layer m = Ok az).
    { unfold mocadi_layer, ncomponents, get_element. destruct (Z.eqb_spec (Z.of_nat (length (m_atoms m))) 1) as [E|E]; [|eexists; reflexivity].
      destruct (m_atoms m) as [|t [|t2 u]]; cbn [length] in E; try lia. eexists. reflexivity. }
    destruct A as [az ->]. cbn [bind]. eexists. reflexivity. }
  destruct E as [bs ->]. cbn [bind]. eexists. reflexivity.
Qed.
Print Assumptions C58_written.

(** the beam: energy, mass and charge of the projectile, then size and angle (times 1000) in each plane *)
Theorem C58_beam {F} {N : Num F} (show : F -> string) p layers psx psy r s : (forall x, clean (show x) = true) -> save_mocadi show true p layers psx psy = Ok (r, s) ->
  exists a x y rest, lines s = ["epax 2"; "atima-1.0"; "option listmode root"; "BEAM"; "100000"; a; "2"; x; "2"; y; "1"] ++ rest /\
    fields a = [show (pT p); "0"; show (pA p); show (pZ p)] /\
    fields x = [show (ps_sigma_x psx); show (fmul (lit 1000) (ps_sigma_a psx)); "0"; "0"; "0"] /\
    fields y = [show (ps_sigma_x psy); show (fmul (lit 1000) (ps_sigma_a psy)); "0"; "0"; "0"].
Proof.
  intros C H. destruct (file_lines show C _ _ _ _ _ _ H) as (_ & bs & _ & ->). unfold beam_lines. do 4 eexists. split; [reflexivity|].
  assert (P : forall u v : F, fields (show u ++ ", " ++ show v ++ ", 0, 0, 0")%string = [show u; show v; "0"; "0"; "0"]).
  { intros u v. unfold fields. rewrite split_app by apply show_comma, C. rewrite comma_sep. rewrite split_app by apply show_comma, C. cbn [split Ascii.eqb Bool.eqb pre map]. rewrite !append_nil, !spaces_app, !(show_id show C). reflexivity. }
  split; [|split; apply P].
  unfold fields. rewrite split_app by apply show_comma, C. change (", 0, " ++ show (pA p) ++ ", " ++ show (pZ p))%string with (", " ++ "0" ++ ", " ++ show (pA p) ++ ", " ++ show (pZ p))%string.
  rewrite comma_sep. rewrite (split_app _ "0") by reflexivity. rewrite comma_sep. rewrite split_app by apply show_comma, C. rewrite comma_sep. rewrite split_end by apply show_comma, C.
  cbn [pre map]. rewrite !append_nil, !spaces_app, !(show_id show C). reflexivity.
Qed.
Print Assumptions C58_beam.

(** the separator of the first layer is on the last line of the beam *)
Theorem C58_separator {F} {N : Num F} (show : F -> string) p m layers psx psy r s : (forall x, clean (show x) = true) -> save_mocadi show true p (m :: layers) psx psy = Ok (r, s) ->
  nth 11 (lines s) "" = "0,  0, 0, 0, 0*******".
Proof.
  intros C H. destruct (file_lines show C _ _ _ _ _ _ H) as (_ & bs & B & ->). cbn [mocadi_blocks] in B. destruct (mocadi_block show m) as [b|] eqn:E; [|discriminate].
  destruct (mocadi_blocks show layers) as [u|] eqn:E2; [|discriminate]. cbn [bind] in B. injection B as <-.
  destruct (mocadi_layer m) as [az|] eqn:A; [|unfold mocadi_block in E; rewrite A in E; discriminate].
  rewrite append_assoc. destruct (block_lines show C m az (u ++ tail_text) A) as (b' & B' & X). assert (b' = b) by congruence. subst b'. rewrite X. reflexivity.
Qed.
Print Assumptions C58_separator.

Local Open Scope R_scope.
(** with "%f": mass, density (times 1000) and thickness in cm are read back to 5e-7, the charge or database number exactly *)
Theorem C58_values p layers psx psy r s : save_mocadi show6 true p layers psx psy = Ok (r, s) ->
  Forall2 (fun m b => exists fa fz fr ft a z r t, b = ([fa; fz; fr], ["2"; ft])%string /\
             read_number fa = Some a /\ read_number fz = Some (IZR z) /\ read_number fr = Some r /\ read_number ft = Some t /\
             Rabs (r - 1000 * m_rho m) <= 5 / 10000000 /\ Rabs (t - m_th m / m_rho m) <= 5 / 10000000 /\
             ((exists e, m_atoms m = [e] /\ Rabs (a - tA e) <= 5 / 10000000 /\ z = tZ e) \/ (length (m_atoms m) <> 1%nat /\ Rabs a <= 5 / 10000000 /\ z = materialdb_id m)))
    layers (matter (lines s)).
Proof.
  intros H. destruct (C58_blocks show6 p layers psx psy r s show6_clean H) as [_ Q]. revert Q. clear H. generalize (matter (lines s)). induction 1 as [|m b l bs (a & z & -> & D) Q IH]; constructor; [|apply IH].
  - destruct (show6_number a) as (va & Ea & Da). destruct (show6_number (fmul (m_rho m) (lit 1000.0))) as (vr & Er & Dr). destruct (show6_number (fdiv (m_th m) (m_rho m))) as (vt & Et & Dt).
    exists (show6 a), (show_int z), (show6 (fmul (m_rho m) (lit 1000.0))), (show6 (fdiv (m_th m) (m_rho m))), va, z, vr, vt. split; [reflexivity|]. split; [exact Ea|]. split; [apply int_number|]. split; [exact Er|]. split; [exact Et|].
    revert Dr Dt. numR. replace (Rlit 1000.0) with 1000 by (dec_norm; lra). intros Dr Dt. split; [rewrite (Rmult_comm 1000); exact Dr|]. split; [exact Dt|].
    destruct D as [(e & M & -> & ->)|(M & -> & ->)]; [left; now exists e|right]. split; [exact M|]. split; [|reflexivity]. revert Da. numR. replace (Rlit 0.0) with 0 by (dec_norm; lra). now rewrite Rminus_0_r.
Qed.
Print Assumptions C58_values.

(** a compound of the database is recognised, whatever its thickness *)
Lemma materialdb_thickness {F} {N : Num F} (m : Material F) th : materialdb_id (set_thickness m th) = materialdb_id m.
Proof.
  unfold materialdb_id. assert (E : forall l, find (fun i => mocadi_material_match (get_material i) (set_thickness m th)) l = find (fun i => mocadi_material_match (get_material i) m) l).
  { induction l as [|i l IH]; [reflexivity|]. cbn [find]. rewrite IH. generalize (get_material (F:=F) i). intros u. reflexivity. }
  now rewrite E.
Qed.
Theorem C58_database id th : (201 <= id <= 347)%Z -> materialdb_id (set_thickness (get_material (F:=R) id) th) = if (id =? 251)%Z then 201%Z else id.
Proof. intros H. rewrite <- (C35_roundtrip id H). apply materialdb_thickness. Qed.
Print Assumptions C58_database.

(** two alloys of tungsten, nickel and iron or copper, 18 g/cm3 *)
Definition alloy (z : Z) (a : R) : Material R := mkMat 18 9 1 0 [mkTarget 183.84 74 0.9; mkTarget 58.6934 28 0.07; mkTarget a z 0.03].
Lemma density18 m : m_rho m = 18 -> materialdb_id m = 0%Z.
Proof.
  intros D. destruct (C35_search m) as [(i & I & _ & M & _)|[E _]]; [|exact E]. exfalso. apply C35_match in M. destruct M as (M & _ & _).
  destruct (get_material_compound i ltac:(lia)) as (c & Ic & _ & G). rewrite G in M. destruct (compound_physical c Ic) as (_ & _ & RHO). rewrite RHO, D, Rlit_Q in M.
  assert (K : forallb (fun c => negb (Qle_bool (dec_Q (cmp_density c)) (19 # 1) && Qle_bool (17 # 1) (dec_Q (cmp_density c)))) compounds = true) by (vm_compute; reflexivity).
  rewrite forallb_forall in K. specialize (K c Ic). apply negb_true_iff, andb_false_iff in K.
  pose proof (Rle_abs (Q2R (dec_Q (cmp_density c)) - 18)) as A. pose proof (Rle_abs (- (Q2R (dec_Q (cmp_density c)) - 18))) as B. rewrite Rabs_Ropp in B.
  assert (Q19 : Q2R (19 # 1) = 19) by (unfold Q2R; cbn; lra). assert (Q17 : Q2R (17 # 1) = 17) by (unfold Q2R; cbn; lra).
  destruct K as [K|K]; apply not_true_iff_false in K; apply K, Qle_bool_iff, Rle_Qle; lra.
Qed.
(** a mixture that is not in the database is written as 0, 0: different materials give the same file *)
Theorem C58_mixture_refuted : ~ (forall p l1 l2 psx psy s, save_mocadi show6 true p l1 psx psy = Ok (true, s) -> save_mocadi show6 true p l2 psx psy = Ok (true, s) -> map m_atoms l1 = map m_atoms l2).
Proof.
  intros H. assert (E : mocadi_blocks show6 [alloy 26 55.845] = mocadi_blocks show6 [alloy 29 63.546]).
  { assert (L : forall z a, mocadi_layer (alloy z a) = Ok (lit 0.0, 0%Z)) by (intros z a; unfold mocadi_layer; rewrite density18 by reflexivity; reflexivity).
    unfold mocadi_blocks, mocadi_block. rewrite !L. cbn [bind]. unfold thickness_cm, alloy. cbn [m_rho m_th]. reflexivity. }
  destruct (C58_written show6 (mkProj 12 6 6 100) [alloy 26 55.845] (mkPS 0 0 0) (mkPS 0 0 0)) as [(s & S1) _].
  assert (S2 : save_mocadi show6 true (mkProj 12 6 6 100) [alloy 29 63.546] (mkPS 0 0 0) (mkPS 0 0 0) = Ok (true, s)) by (rewrite <- S1; unfold save_mocadi; now rewrite E).
  specialize (H _ _ _ _ _ _ S1 S2). apply (f_equal (map (map tZ))) in H. unfold alloy in H. cbn [map m_atoms tZ] in H. congruence.
Qed.
Print Assumptions C58_mixture_refuted.

(** a layer thinner than 5e-7 cm is written as empty *)
Theorem C58_thin m : 0 < m_th m / m_rho m < 5 / 10000000 -> show6 (m_th m / m_rho m) = "0.000000".
Proof.
  intros H. unfold show6. destruct (Rltb_spec (m_th m / m_rho m) 0); [lra|]. rewrite Rabs_right by lra.
  assert (E : round_even (m_th m / m_rho m * 1000000) = 0%Z).
  { unfold round_even. set (y := m_th m / m_rho m * 1000000). assert (Y : 0 < y < 1 / 2) by (unfold y; lra). clearbody y. destruct (Rfloor_bound y) as [A B].
    assert (F0 : Rfloor_Z y = 0%Z) by (apply Z.le_antisymm; [apply Z.lt_succ_r, lt_IZR; rewrite succ_IZR|apply Z.lt_succ_r, lt_IZR; rewrite succ_IZR]; cbn; lra).
    rewrite F0 in *. destruct (Rltb_spec (y - 0) (1 / 2)); [reflexivity|lra]. }
  rewrite E. reflexivity.
Qed.
Print Assumptions C58_thin.

Lemma show6_int n : (0 <= n)%Z -> show6 (IZR n) = (show_nonneg n ++ ".000000")%string.
Proof.
  intros H. unfold show6. apply IZR_le in H as H'. destruct (Rltb_spec (IZR n) 0); [lra|]. rewrite Rabs_right by lra. rewrite <- mult_IZR.
  assert (E : round_even (IZR (n * 1000000)) = (n * 1000000)%Z).
  { unfold round_even. destruct (Rfloor_bound (IZR (n * 1000000))) as [A B]. assert (F0 : Rfloor_Z (IZR (n * 1000000)) = (n * 1000000)%Z).
    { apply le_IZR in A. rewrite <- plus_IZR in B. apply lt_IZR in B. lia. }
    rewrite F0, Rminus_diag_eq by reflexivity. destruct (Rltb_spec 0 (1 / 2)); [reflexivity|lra]. }
  rewrite E, Z.div_mul, Z_mod_mult by lia. reflexivity.
Qed.
(** a carbon beam through 10 um beryllium and 3 mm of plastic: two blocks, the second with the number of the database *)
Example C58_case : exists s, save_mocadi show6 true (mkProj 12 6 6 100) [mkMat 1.85 0.00185 9 0 [mkTarget 9 4 1]; set_thickness (get_material 201) 0.3096] (mkPS 0.1 0.002 0) (mkPS 0.2 0.003 0) = Ok (true, s) /\
  exists b1 b2, matter (lines s) = [b1; b2] /\ fst b1 = ["9.000000"; "4"; "1850.000000"]%string /\ nth 1 (fst b2) ""%string = "201"%string.
Proof.
  destruct (C58_written show6 (mkProj 12 6 6 100) [mkMat 1.85 0.00185 9 0 [mkTarget 9 4 1]; set_thickness (get_material 201) 0.3096] (mkPS 0.1 0.002 0) (mkPS 0.2 0.003 0)) as [(s & H) _].
  exists s. split; [exact H|]. destruct (C58_blocks show6 _ _ _ _ _ _ show6_clean H) as [_ Q]. inversion Q as [|m1 b1 l1 r1 (a1 & z1 & B1 & D1) Q1 X1 Y1]; subst. inversion Q1 as [|m2 b2 l2 r2 (a2 & z2 & B2 & D2) Q2 X2 Y2]; subst. inversion Q2; subst.
  eexists. eexists. split; [reflexivity|]. cbn [fst nth].
  split.
  - destruct D1 as [(t & M & -> & ->)|(M & _)]; [|cbn in M; lia]. cbn [m_atoms] in M. injection M as <-. cbn [tA tZ m_rho]. numR. replace (1.85 * Rlit 1000.0) with 1850 by (dec_norm; lra).
    rewrite !show6_int by lia. reflexivity.
  - destruct D2 as [(t & M & _)|(_ & _ & ->)]; [|rewrite C58_database by lia; reflexivity]. exfalso. apply (f_equal (@length _)) in M. revert M.
    destruct (get_material_compound 201 ltac:(lia)) as (c & Ic & Id & ->). destruct (compound_physical c Ic) as (_ & A & _). cbn [set_thickness m_atoms length]. rewrite A. unfold lit_entries. rewrite !map_length.
    assert (X : forallb (fun c => implb (Z.eqb (cmp_id c) 201) (Nat.eqb (length (cmp_atoms c)) 2)) compounds = true) by (vm_compute; reflexivity).
    rewrite forallb_forall in X. specialize (X c Ic). rewrite Id in X. cbn [Z.eqb Pos.eqb implb] in X. apply Nat.eqb_eq in X. rewrite X. discriminate.
Qed.
