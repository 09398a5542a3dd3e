(** * The header file which utils/generator.cpp writes *)
From Coq Require Import ZArith Lia List Bool Ascii String Reals Lra.
From Verif Require Import Num NumR TrigR Structures Lindhard Convert Generator.
From Verif Require Import EnergyTable Calculations DataElements.
Import ListNotations.
Local Open Scope string_scope.
Local Open Scope list_scope.

(** ** How a C++ compiler reads such a file: an array is a brace-enclosed list of rows inside two
    namespaces, a row a brace-enclosed list of cells; the line before the array declares it *)
Record scan := mkScan {
  depth : nat; cell : string; row : list string; rows : list (list string); line : string; before : string;
  name : string; found : list (string * list (list string)) }.
Definition is (c d : ascii) : bool := Ascii.eqb c d.
Definition comma : ascii := ascii_of_nat 44.
Definition opening : ascii := ascii_of_nat 123.
Definition closing : ascii := ascii_of_nat 125.
Definition newline : ascii := ascii_of_nat 10.
Definition read (s : scan) (c : ascii) : scan :=
  match s with mkScan d ce r rs l b n f =>
    if is c opening then
      match d with
      | 2%nat => mkScan 3 ce r [] l b b f
      | 3%nat => mkScan 4 "" [] rs l b n f
      | _ => mkScan (S d) ce r rs l b n f
      end
    else if is c closing then
      match d with
      | 4%nat => mkScan 3 "" [] (rs ++ [r ++ [ce]]) l b n f
      | 3%nat => mkScan 2 ce r [] l b "" (f ++ [(n, rs)])
      | O => mkScan O ce r rs l b n (f ++ [("unmatched", [])])
      | _ => mkScan (pred d) ce r rs l b n f
      end
    else if (d <=? 2)%nat then
      if is c newline then mkScan d ce r rs "" l n f else mkScan d ce r rs (l ++ String c "") b n f
    else if (d =? 4)%nat then
      if is c comma then mkScan d "" (r ++ [ce]) rs l b n f else mkScan d (ce ++ String c "") r rs l b n f
    else s
  end.
Fixpoint reads (txt : string) (s : scan) : scan :=
  match txt with EmptyString => s | String c txt' => reads txt' (read s c) end.
Definition scanned (txt : string) : scan := reads txt (mkScan 0 "" [] [] "" "" "" []).
Definition arrays (txt : string) : list (string * list (list string)) := found (scanned txt).
(** the braces left open at the end of the file *)
Definition left_open (txt : string) : nat := depth (scanned txt).

(** a number is printed without braces, commas and ends of line *)
Definition plain_char (c : ascii) : bool := negb (is c opening) && negb (is c closing) && negb (is c comma) && negb (is c newline).
Fixpoint plain (s : string) : bool := match s with EmptyString => true | String c s' => plain_char c && plain s' end.

Lemma some_inj {A} (x y : A) : Some x = Some y -> x = y. Proof. intros H. injection H as H. exact H. Qed.
Lemma reads_app a b s : reads (a ++ b) s = reads b (reads a s).
Proof. revert s. induction a as [|c a IH]; intros s; [reflexivity|]. apply IH. Qed.
Lemma sapp_a (a b c : string) : ((a ++ b) ++ c)%string = (a ++ (b ++ c))%string.
Proof. induction a as [|x a IH]; [reflexivity|]. cbn. rewrite IH. reflexivity. Qed.
Lemma sapp_n (a : string) : (a ++ "")%string = a.
Proof. induction a as [|x a IH]; [reflexivity|]. cbn. rewrite IH. reflexivity. Qed.
Lemma plain_char_inv c : plain_char c = true -> is c opening = false /\ is c closing = false /\ is c comma = false /\ is c newline = false.
Proof. unfold plain_char. destruct (is c opening), (is c closing), (is c comma), (is c newline); intros H; try discriminate H; auto. Qed.
Fixpoint inline (s : string) : bool :=
  match s with EmptyString => true | String c s' => negb (is c opening) && negb (is c closing) && negb (is c newline) && inline s' end.
Lemma plain_inline s : plain s = true -> inline s = true.
Proof.
  induction s as [|c s IH]; [reflexivity|]. cbn [plain inline]. intros P. apply andb_true_iff in P. destruct P as [P1 P2].
  destruct (plain_char_inv c P1) as (-> & -> & _ & ->). rewrite IH by exact P2. reflexivity.
Qed.
Lemma reads_line a d ce r rs l b n f : inline a = true -> (d <= 2)%nat ->
  reads a (mkScan d ce r rs l b n f) = mkScan d ce r rs (l ++ a) b n f.
Proof.
  intros P D. revert l P. induction a as [|c a IH]; intros l P; [rewrite sapp_n; reflexivity|].
  cbn [inline] in P. apply andb_true_iff in P. destruct P as [P1 P2].
  destruct (is c opening) eqn:H1; [discriminate P1|]. destruct (is c closing) eqn:H2; [discriminate P1|]. destruct (is c newline) eqn:H4; [discriminate P1|].
  cbn [reads read]. rewrite H1, H2, H4. replace (d <=? 2)%nat with true by (symmetry; apply Nat.leb_le; exact D).
  rewrite IH by exact P2. rewrite sapp_a. reflexivity.
Qed.
Lemma reads_nl d ce r rs l b n f : (d <= 2)%nat -> reads nl (mkScan d ce r rs l b n f) = mkScan d ce r rs "" l n f.
Proof. intros D. destruct d as [|[|[|d]]]; [reflexivity..|lia]. Qed.
Lemma reads_cell a ce r rs l b n f : plain a = true ->
  reads a (mkScan 4 ce r rs l b n f) = mkScan 4 (ce ++ a) r rs l b n f.
Proof.
  intros P. revert ce P. induction a as [|c a IH]; intros ce P; [rewrite sapp_n; reflexivity|].
  cbn [plain] in P. apply andb_true_iff in P. destruct P as [P1 P2]. destruct (plain_char_inv c P1) as (H1 & H2 & H3 & H4).
  cbn [reads read Nat.leb Nat.eqb]. rewrite H1, H2, H3. rewrite IH by exact P2. rewrite sapp_a. reflexivity.
Qed.

Section Text.
  Context {F : Type} {N : Num F}.
  Variable show : F -> string.
  Variables ls lsX : Projectile F -> option F.
  Hypothesis SH : forall x, plain (show x) = true.

  (** the projectile of a table entry: charge z, mass a, energy number i *)
  Definition nuclide (a : F) (z i : nat) : Projectile F := mkProj a (ofZ (Z.of_nat z)) (lit 0) (gen_energy (Z.of_nat i)).
  Definition weight (z : nat) : F := element_atomic_weight (Z.of_nat z).
  Definition heavier (z : nat) : F := (weight z + weight z * lit 0.05)%num.
  Definition value (f : Projectile F -> option F) (p : Projectile F) : F := match f p with Some x => x | None => lit 0 end.
  Definition entry (f : Projectile F -> option F) (m : nat -> F) (z i : nat) : string := show (value f (nuclide (m z) z i)).

  (** text of the cells and rows *)
  Fixpoint cells (e : nat -> string) (i n : nat) : string :=
    match n with O => "" | S n' => ((if (i =? 0)%nat then "" else ",") ++ e i ++ cells e (S i) n')%string end.
  Fixpoint lines_of (e : nat -> nat -> string) (z n : nat) : string :=
    match n with O => "" | S n' => ((if (z =? 1)%nat then "" else ",") ++ nl ++ tabulator ++ "{" ++ cells (e z) 0 200 ++ "}" ++ lines_of e (S z) n')%string end.
  Definition fourmap (a b c d : string) (o : four) : four := match o with (x, y, z, w) => (x ++ a, y ++ b, z ++ c, w ++ d)%string end.
  Definition defined_at (z i : nat) : Prop :=
    ls (nuclide (weight z) z i) <> None /\ ls (nuclide (heavier z) z i) <> None /\
    lsX (nuclide (weight z) z i) <> None /\ lsX (nuclide (heavier z) z i) <> None.

  Lemma column z i v : gen_column ls lsX (Z.of_nat z) (Z.of_nat i) = Some v -> defined_at z i /\
    v = (value ls (nuclide (weight z) z i), value ls (nuclide (heavier z) z i), value lsX (nuclide (weight z) z i), value lsX (nuclide (heavier z) z i)).
  Proof.
    unfold gen_column. cbv zeta. unfold defined_at, value, nuclide, heavier, weight.
    destruct (ls (mkProj (element_atomic_weight (Z.of_nat z)) _ _ _)) as [r|] eqn:E1; [|discriminate].
    cbn [obind]. destruct (lsX (mkProj (element_atomic_weight (Z.of_nat z)) _ _ _)) as [x|] eqn:E2; [|discriminate].
    cbn [obind]. destruct (ls (mkProj (_ + _)%num _ _ _)) as [r2|] eqn:E3; [|discriminate].
    cbn [obind]. destruct (lsX (mkProj (_ + _)%num _ _ _)) as [x2|] eqn:E4; [|discriminate].
    cbn [obind]. intros H. injection H as <-. repeat split; discriminate.
  Qed.
  Lemma columns z n : forall i o o', gen_columns show ls lsX (Z.of_nat z) (Z.of_nat i) n o = Some o' ->
    (forall j, (i <= j < i + n)%nat -> defined_at z j) /\
    o' = fourmap (cells (entry ls weight z) i n) (cells (entry ls heavier z) i n) (cells (entry lsX weight z) i n) (cells (entry lsX heavier z) i n) o.
  Proof.
    induction n as [|n IH]; intros i o o' E; cbn [gen_columns] in E.
    - injection E as <-. split; [intros; lia|]. destruct o as [[[a b] c] d]. cbn. rewrite !sapp_n. reflexivity.
    - destruct (gen_column ls lsX (Z.of_nat z) (Z.of_nat i)) as [v|] eqn:C; [|discriminate E]. cbn [obind] in E.
      destruct (column _ _ _ C) as [D V]. subst v.
      replace (Z.of_nat i + 1)%Z with (Z.of_nat (S i)) in E by lia. apply IH in E. destruct E as [D' E]. split.
      + intros j J. destruct (Nat.eq_dec j i) as [->|]; [exact D|]. apply D'. lia.
      + rewrite E. destruct o as [[[a b] c] d]. cbn [cells].
        replace (Z.of_nat i =? 0)%Z with (i =? 0)%nat by (destruct i; reflexivity).
        destruct (i =? 0)%nat; cbn [each emit fourmap]; rewrite !sapp_a; reflexivity.
  Qed.
  Local Opaque cells gen_columns.
  Lemma rows_text n : forall z o o', gen_rows show ls lsX (Z.of_nat z) n o = Some o' ->
    (forall y j, (z <= y < z + n)%nat -> (j < 200)%nat -> defined_at y j) /\
    o' = fourmap (lines_of (entry ls weight) z n) (lines_of (entry ls heavier) z n) (lines_of (entry lsX weight) z n) (lines_of (entry lsX heavier) z n) o.
  Proof.
    induction n as [|n IH]; intros z o o' E; cbn [gen_rows] in E.
    - injection E as <-. split; [intros; lia|]. destruct o as [[[a b] c] d]. cbn. rewrite !sapp_n. reflexivity.
    - match type of E with context [gen_columns show ls lsX (Z.of_nat z) 0 200 ?o1] => destruct (gen_columns show ls lsX (Z.of_nat z) 0 200 o1) as [o2|] eqn:C; [|discriminate E] end.
      cbn [obind] in E. change 0%Z with (Z.of_nat 0) in C. apply columns in C. destruct C as [D C].
      replace (Z.of_nat z + 1)%Z with (Z.of_nat (S z)) in E by lia. apply IH in E. destruct E as [D' E]. split.
      + intros y j Y J. destruct (Nat.eq_dec y z) as [->|]; [apply D; lia|]. apply D'; lia.
      + rewrite E, C. destruct o as [[[a b] c] d]. cbn [lines_of].
        replace (Z.of_nat z =? 1)%Z with (z =? 1)%nat by (destruct z as [|[|z]]; reflexivity || (symmetry; apply Z.eqb_neq; lia)).
        destruct (z =? 1)%nat; cbn [each fourmap]; rewrite !sapp_a; reflexivity.
  Qed.

  Local Transparent cells.

  (** reading the text back *)
  Definition tableau (e : nat -> nat -> string) (z n : nat) : list (list string) := map (fun z => map (e z) (seq 0 200)) (seq z n).
  Lemma read_cells e rs l b nm f n : (forall i, plain (e i) = true) -> forall i, (0 < i)%nat -> forall ce r,
    reads (cells e i n ++ "}") (mkScan 4 ce r rs l b nm f) =
    mkScan 3 "" [] (rs ++ [r ++ ce :: map e (seq i n)]) l b nm f.
  Proof.
    intros P. induction n as [|n IH]; intros i I ce r; [reflexivity|].
    cbn [cells]. replace (i =? 0)%nat with false by (symmetry; apply Nat.eqb_neq; lia).
    rewrite !sapp_a, reads_app. cbn [reads read].
    change (is "," opening) with false. change (is "," closing) with false. change (is "," comma) with true. cbn [Nat.leb Nat.eqb].
    rewrite reads_app, reads_cell by apply P. rewrite IH by lia. rewrite <- app_assoc. reflexivity.
  Qed.
  Lemma read_row_n e rs l b nm f n : (forall i, plain (e i) = true) ->
    reads (cells e 0 (S n) ++ "}") (mkScan 4 "" [] rs l b nm f) = mkScan 3 "" [] (rs ++ [map e (seq 0 (S n))]) l b nm f.
  Proof.
    intros P. cbn [cells seq map]. change (0 =? 0)%nat with true. cbv iota.
    rewrite !sapp_a. rewrite reads_app. cbn [reads]. rewrite reads_app, reads_cell by apply P. rewrite read_cells by (exact P || lia). reflexivity.
  Qed.
  Lemma read_row e rs l b nm f : (forall i, plain (e i) = true) ->
    reads (cells e 0 200 ++ "}") (mkScan 4 "" [] rs l b nm f) = mkScan 3 "" [] (rs ++ [map e (seq 0 200)]) l b nm f.
  Proof. intros P. exact (read_row_n e rs l b nm f 199 P). Qed.
  Local Opaque cells.
  Lemma read_lines e l b nm f n : (forall z i, plain (e z i) = true) -> forall z rs ce r, 
    reads (lines_of e z n ++ nl ++ "}") (mkScan 3 ce r rs l b nm f) =
    match n with O => mkScan 2 ce r [] l b "" (f ++ [(nm, rs)]) | S _ => mkScan 2 "" [] [] l b "" (f ++ [(nm, rs ++ tableau e z n)]) end.
  Proof.
    intros P. induction n as [|n IH]; intros z rs ce r; [reflexivity|].
    cbn [lines_of]. rewrite !sapp_a.
    assert (H : reads ((if (z =? 1)%nat then "" else ",") ++ nl ++ tabulator ++ "{" ++ cells (e z) 0 200 ++ "}" ++ lines_of e (S z) n ++ nl ++ "}")
                  (mkScan 3 ce r rs l b nm f) =
                reads (lines_of e (S z) n ++ nl ++ "}") (mkScan 3 "" [] (rs ++ [map (e z) (seq 0 200)]) l b nm f)).
    { rewrite reads_app. replace (reads (if (z =? 1)%nat then "" else ",") (mkScan 3 ce r rs l b nm f)) with (mkScan 3 ce r rs l b nm f)
        by (destruct (z =? 1)%nat; reflexivity).
      rewrite reads_app. change (reads nl (mkScan 3 ce r rs l b nm f)) with (mkScan 3 ce r rs l b nm f).
      rewrite reads_app. change (reads tabulator (mkScan 3 ce r rs l b nm f)) with (mkScan 3 ce r rs l b nm f).
      rewrite reads_app. change (reads "{" (mkScan 3 ce r rs l b nm f)) with (mkScan 4 "" [] rs l b nm f).
      rewrite <- !sapp_a. rewrite sapp_a, sapp_a, reads_app. rewrite sapp_a. rewrite read_row by apply P. reflexivity. }
    rewrite H, IH. unfold tableau. cbn [seq map]. destruct n; [reflexivity|]. rewrite <- app_assoc. reflexivity.
  Qed.
  Definition declared (nm : string) : string := ("double " ++ nm ++ "[][" ++ show (lit 200) ++ "]=")%string.
  Lemma read_array nm e ce r rs b n f k : inline nm = true -> (forall z i, plain (e z i) = true) ->
    reads (gen_array show nm ++ (("{" ++ lines_of e 1 108) ++ nl ++ "};") ++ nl ++ k) (mkScan 2 ce r rs "" b n f) =
    reads k (mkScan 2 "" [] [] "" ";" "" (f ++ [(declared nm, tableau e 1 108)])).
  Proof.
    intros NM P. unfold gen_array. rewrite !reads_app.
    rewrite (reads_line "double ") by (reflexivity || lia). rewrite (reads_line nm) by (exact NM || lia).
    rewrite (reads_line "[][") by (reflexivity || lia). rewrite (reads_line (show _)) by (apply plain_inline, SH || lia).
    rewrite (reads_line "]=") by (reflexivity || lia). rewrite reads_nl by lia.
    match goal with |- context [reads "{" (mkScan 2 ?x ?y ?z ?l ?b ?n ?f)] => change (reads "{" (mkScan 2 x y z l b n f)) with (mkScan 3 x y [] l b b f) end.
    match goal with |- context [reads "};" ?x] => change (reads "};" x) with (reads ";" (reads "}" x)) end.
    rewrite <- (reads_app nl "}"), <- (reads_app (lines_of e 1 108)).
    rewrite read_lines by exact P. cbn [app]. rewrite (reads_line ";") by (reflexivity || lia). rewrite reads_nl by lia.
    unfold declared. rewrite !sapp_a. reflexivity.
  Qed.
  Lemma read_comment c ce r rs l b n f k : inline c = true ->
    reads (nl ++ c ++ nl ++ k) (mkScan 2 ce r rs l b n f) = reads k (mkScan 2 ce r rs "" c n f).
  Proof. intros C. rewrite !reads_app. rewrite reads_nl by lia. rewrite reads_line by (exact C || lia). rewrite reads_nl by lia. reflexivity. Qed.
  Definition entries (f : Projectile F -> option F) (m : nat -> F) : list (list string) := tableau (entry f m) 1 108.

  Lemma entry_plain f m z i : plain (entry f m z i) = true. Proof. apply SH. Qed.
  Lemma head_read : exists b, reads (gen_head show) (mkScan 0 "" [] [] "" "" "" []) = mkScan 2 "" [] [] "" b "" [].
  Proof.
    unfold gen_head. eexists. rewrite !reads_app.
    Local Ltac step := first [rewrite reads_nl by lia | rewrite (reads_line (show _)) by (apply plain_inline, SH || lia)
      | match goal with |- context [reads ?x (mkScan ?d ?ce ?r ?rs ?l ?b ?n ?f)] =>
          match x with
          | "namespace catima{" => change (reads x (mkScan d ce r rs l b n f)) with (mkScan 1 "" [] [] "namespace catima" b "" [])
          | "namespace ls_coefficients{" => change (reads x (mkScan d ce r rs l b n f)) with (mkScan 2 "" [] [] "namespace ls_coefficients" b "" [])
          | _ => rewrite (reads_line x) by (reflexivity || lia) end end].
    repeat step. reflexivity.
  Qed.
  Lemma text_arrays txt : generator show ls lsX = Some txt ->
    (forall z i, (1 <= z <= 108)%nat -> (i < 200)%nat -> defined_at z i) /\
    arrays txt = [(declared "ls_coefficients_a", entries ls weight); (declared "ls_coefficients_ahi", entries ls heavier);
                  (declared "ls_X_coefficients_a", entries lsX weight); (declared "ls_X_coefficients_ahi", entries lsX heavier)] /\
    left_open txt = 0%nat.
  Proof.
    unfold generator, gen_tables. change (Z.to_nat (ATOMIC_WEIGHT_MAXZ - 2)) with 108%nat. intros G.
    match type of G with context [gen_rows ?a ?b ?c 1 108 ?d] => destruct (gen_rows a b c 1 108 d) as [o|] eqn:E; [|discriminate G] end.
    change 1%Z with (Z.of_nat 1) in E. apply rows_text in E. destruct E as [D E]. split.
    { intros z i Z1 I. apply D; lia. }
    subst o. cbn [obind each fourmap] in G. apply some_inj in G. subst txt.
    destruct head_read as [b HR].
    match goal with |- _ = ?x /\ _ => set (L := x) end.
    match goal with |- arrays ?t = _ /\ _ => assert (SC : exists l b, scanned t = mkScan 0 "" [] [] l b "" L) end.
    { unfold scanned. rewrite reads_app, HR.
    assert (EP : forall f m z i, plain (entry f m z i) = true) by (intros; apply entry_plain).
    rewrite read_comment by reflexivity. rewrite read_comment by reflexivity. rewrite read_array by (reflexivity || apply EP).
    rewrite read_comment by reflexivity. rewrite read_array by (reflexivity || apply EP).
    rewrite read_comment by reflexivity. rewrite read_comment by reflexivity. rewrite read_array by (reflexivity || apply EP).
    rewrite read_comment by reflexivity. rewrite read_array by (reflexivity || apply EP).
    do 2 eexists. reflexivity. }
    destruct SC as (l & b' & SC). unfold arrays, left_open. rewrite SC. split; reflexivity.
  Qed.
  (** the file is written exactly when every entry can be computed *)
  Lemma column_total z i : defined_at z i -> exists v, gen_column ls lsX (Z.of_nat z) (Z.of_nat i) = Some v.
  Proof.
    unfold defined_at, gen_column, nuclide, heavier, weight. cbv zeta. intros (H1 & H2 & H3 & H4).
    destruct (ls (mkProj (element_atomic_weight (Z.of_nat z)) _ _ _)) as [r|]; [|now elim H1].
    destruct (lsX (mkProj (element_atomic_weight (Z.of_nat z)) _ _ _)) as [x|]; [|now elim H3]. cbn [obind].
    destruct (ls (mkProj (_ + _)%num _ _ _)) as [r2|]; [|now elim H2].
    destruct (lsX (mkProj (_ + _)%num _ _ _)) as [x2|]; [|now elim H4]. cbn [obind]. eexists. reflexivity.
  Qed.
  Local Transparent gen_columns.
  Lemma columns_total z n : forall i o, (forall j, (i <= j < i + n)%nat -> defined_at z j) -> exists o', gen_columns show ls lsX (Z.of_nat z) (Z.of_nat i) n o = Some o'.
  Proof.
    induction n as [|n IH]; intros i o D; cbn [gen_columns]; [eexists; reflexivity|].
    destruct (column_total z i (D i ltac:(lia))) as [v ->]. cbn [obind]. replace (Z.of_nat i + 1)%Z with (Z.of_nat (S i)) by lia.
    apply IH. intros j J. apply D. lia.
  Qed.
  Local Opaque gen_columns.
  Lemma rows_total n : forall z o, (forall y j, (z <= y < z + n)%nat -> (j < 200)%nat -> defined_at y j) -> exists o', gen_rows show ls lsX (Z.of_nat z) n o = Some o'.
  Proof.
    induction n as [|n IH]; intros z o D; cbn [gen_rows]; [eexists; reflexivity|].
    match goal with |- context [gen_columns show ls lsX (Z.of_nat z) 0 200 ?o1] =>
      destruct (columns_total z 200 0 o1) as [o2 C]; [intros j J; apply D; lia|]; change (Z.of_nat 0) with 0%Z in C; rewrite C end.
    cbn [obind]. replace (Z.of_nat z + 1)%Z with (Z.of_nat (S z)) by lia. apply IH. intros y j Y J. apply D; lia.
  Qed.
  Lemma written : (forall z i, (1 <= z <= 108)%nat -> (i < 200)%nat -> defined_at z i) -> exists txt, generator show ls lsX = Some txt.
  Proof.
    intros D. unfold generator, gen_tables. change (Z.to_nat (ATOMIC_WEIGHT_MAXZ - 2)) with 108%nat.
    destruct (rows_total 108 1 ("{", "{", "{", "{")) as [o E]; [intros y j Y J; apply D; lia|]. change (Z.of_nat 1) with 1%Z in E. rewrite E. cbn [obind].
    destruct (each (nl ++ "};")%string o) as [[[a b] c] d]. eexists. reflexivity.
  Qed.
End Text.

(** ** The four arrays of the file.  Row z-1, column i of each holds the correction for charge z at grid
    energy i: for the atomic weight in the arrays _a and for 1.05 times it in the arrays _ahi *)
Theorem C63_arrays {F} {N : Num F} (show : F -> string) ls lsX txt : (forall x, plain (show x) = true) ->
  generator show ls lsX = Some txt ->
  exists r r2 x x2 : nat -> nat -> F,
    (forall z i, (1 <= z <= 108)%nat -> (i < 200)%nat ->
       let p a := mkProj a (ofZ (Z.of_nat z)) (lit 0) (gen_energy (Z.of_nat i)) in
       let A := element_atomic_weight (Z.of_nat z) in let A2 := (A + A * lit 0.05)%num in
       ls (p A) = Some (r z i) /\ ls (p A2) = Some (r2 z i) /\ lsX (p A) = Some (x z i) /\ lsX (p A2) = Some (x2 z i)) /\
    let table v := map (fun z => map (fun i => show (v z i)) (seq 0 200)) (seq 1 108) in
    let declaration nm := ("double " ++ nm ++ "[][" ++ show (lit 200) ++ "]=")%string in
    arrays txt = [(declaration "ls_coefficients_a", table r); (declaration "ls_coefficients_ahi", table r2);
                  (declaration "ls_X_coefficients_a", table x); (declaration "ls_X_coefficients_ahi", table x2)].
Proof.
  intros SH G. destruct (text_arrays show ls lsX SH txt G) as (D & A & _).
  exists (fun z i => value ls (nuclide (weight z) z i)), (fun z i => value ls (nuclide (heavier z) z i)),
    (fun z i => value lsX (nuclide (weight z) z i)), (fun z i => value lsX (nuclide (heavier z) z i)). split; [|exact A].
  intros z i HZ HI p A1 A2. destruct (D z i HZ HI) as (D1 & D2 & D3 & D4).
  change (p A1) with (nuclide (weight z) z i : Projectile F). change (p A2) with (nuclide (heavier z) z i : Projectile F). unfold value.
  destruct (ls (nuclide (weight z) z i)); [|now elim D1]. destruct (ls (nuclide (heavier z) z i)); [|now elim D2].
  destruct (lsX (nuclide (weight z) z i)); [|now elim D3]. destruct (lsX (nuclide (heavier z) z i)); [|now elim D4]. repeat split.
Qed.
Print Assumptions C63_arrays.

(** ** Every brace of the file is closed *)
Theorem C63_closed {F} {N : Num F} (show : F -> string) ls lsX txt : (forall x, plain (show x) = true) ->
  generator show ls lsX = Some txt -> left_open txt = 0%nat /\ ~ In ("unmatched", []) (arrays txt).
Proof.
  intros SH G. destruct (text_arrays show ls lsX SH txt G) as (_ & A & L). split; [exact L|]. rewrite A.
  intros H. apply (in_map (fun e => List.length (snd e))) in H. cbn [map snd List.length] in H. unfold entries, tableau in H. rewrite !map_length, !seq_length in H.
  repeat (destruct H as [H|H]; [discriminate H|]). destruct H.
Qed.
Print Assumptions C63_closed.

(** ** A file is written exactly when the 4 x 108 x 200 corrections can be computed *)
Theorem C63_written {F} {N : Num F} (show : F -> string) ls lsX : (forall x, plain (show x) = true) ->
  (exists txt, generator show ls lsX = Some txt) <->
  (forall z i, (1 <= z <= 108)%nat -> (i < 200)%nat ->
     let A := element_atomic_weight (Z.of_nat z) in
     forall a, a = A \/ a = (A + A * lit 0.05)%num ->
     let p := mkProj a (ofZ (Z.of_nat z)) (lit 0) (gen_energy (Z.of_nat i)) in ls p <> None /\ lsX p <> None).
Proof.
  intros SH. split.
  - intros [txt G] z i HZ HI A a HA p. destruct (text_arrays show ls lsX SH txt G) as (D & _). destruct (D z i HZ HI) as (D1 & D2 & D3 & D4).
    unfold p. destruct HA as [->| ->]; split; assumption.
  - intros D. apply written. intros z i HZ HI. destruct (D z i HZ HI _ (or_introl eq_refl)) as [D1 D3]. destruct (D z i HZ HI _ (or_intror eq_refl)) as [D2 D4].
    repeat split; assumption.
Qed.
Print Assumptions C63_written.

Lemma tableau_length {F} {N : Num F} show f m : List.length (entries (F:=F) show f m) = 108%nat.
Proof. unfold entries, tableau. rewrite map_length. apply seq_length. Qed.
Lemma announced {F} {N : Num F} (show : F -> string) ls lsX txt : generator show ls lsX = Some txt ->
  exists a b, txt = (a ++ nl ++ "#define LS_MAX_Z 110" ++ nl ++ b)%string.
Proof.
  unfold generator. destruct (gen_tables show ls lsX) as [[[[a b] c] d]|]; [|discriminate]. cbn [obind]. intros G. apply some_inj in G. rewrite <- G. clear G.
  match goal with |- exists x y, (gen_head show ++ ?t)%string = _ => generalize t end. intros t. unfold gen_head.
  match goal with |- exists x y, ((?a1 ++ ?a2 ++ ?a3 ++ ?a4 ++ ?a5 ++ ?a6 ++ ?a7 ++ ?a8 ++ ?a9 ++ ?a10 ++ ?a11 ++ ?a12 ++ ?a13 ++ ?a14 ++ ?k) ++ t)%string = _ =>
    exists (a1 ++ a2 ++ a3 ++ a4 ++ a5 ++ a6 ++ a7 ++ a8 ++ a9 ++ a10)%string, (k ++ t)%string; generalize a1 a2 a3 a4 a5 a6 a7 a8 a9 a10 k end.
  intros. change "#define LS_MAX_Z 110" with ("#define LS_MAX_Z " ++ "110")%string. change (show_int ATOMIC_WEIGHT_MAXZ) with "110".
  rewrite !sapp_a. reflexivity.
Qed.
(** ** The file announces corrections up to Z = 110, but no array in it has a row for Z = 109 or 110 *)
Theorem C63_rows_refuted {F} {N : Num F} (show : F -> string) ls lsX txt : (forall x, plain (show x) = true) ->
  generator show ls lsX = Some txt ->
  (exists a b, txt = (a ++ nl ++ "#define LS_MAX_Z 110" ++ nl ++ b)%string) /\
  List.length (arrays txt) = 4%nat /\ forall nm t, In (nm, t) (arrays txt) -> List.length t = 108%nat.
Proof.
  intros SH G. split; [exact (announced show ls lsX txt G)|]. destruct (text_arrays show ls lsX SH txt G) as (_ & A & _). rewrite A. split; [reflexivity|].
  intros nm t I. apply (in_map (fun e => List.length (snd e))) in I. cbn [map snd] in I. rewrite !tableau_length in I.
  repeat (destruct I as [I|I]; [symmetry; exact I|]). destruct I.
Qed.
Print Assumptions C63_rows_refuted.
