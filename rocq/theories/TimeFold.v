(** * TimeFold: series of times crossing a repeated hour *)

From Coq Require Import ZArith QArith List Bool Arith String Lia Sorting.Sorted.
From Verif Require Import Num Arrays ArraysLemmas Libspa Time Core Usecases Spec
     PipelineLemmas UsecaseLemmas GenericLemmas GenericLemmas2 TimeLemmas.
Import ListNotations.
Open Scope Z_scope.
Open Scope list_scope.

Lemma loc_fuel n : forall m l, (List.length l <= n)%nat -> (List.length l <= m)%nat -> localize_classes n l = localize_classes m l.
Proof.
  induction n as [|n IH]; intros m l Hn Hm.
  - destruct l; [|cbn in Hn; lia]. destruct m; reflexivity.
  - destruct l as [|c l]; [destruct m; reflexivity|]. cbn [List.length] in Hn, Hm. destruct m as [|m]; [lia|].
    cbn [localize_classes]. destruct c as [| |u|a b]; try reflexivity; try (now rewrite (IH m) by lia).
    destruct (take_run (LTwo a b :: l)) as [r rest] eqn:E. assert (El := take_run_length _ _ _ E). cbn [List.length] in El.
    assert (1 <= List.length r)%nat by (cbn in E; destruct (take_run l); injection E as <- <-; cbn; lia).
    destruct (resolve_run _); cbn [rbind]; [|reflexivity]. now rewrite (IH m) by lia.
Qed.

Definition loc (l : list loc_class) : res (list (option Z)) := localize_classes (List.length l) l.

Lemma loc_nat l : loc (LNat :: l) = do r <- loc l; Ok (None :: r).
Proof. reflexivity. Qed.
Lemma loc_one u l : loc (LOne u :: l) = do r <- loc l; Ok (Some u :: r).
Proof. reflexivity. Qed.
Lemma take_run_app r l : (forall a b l', l <> LTwo a b :: l') ->
  take_run (map (fun p => LTwo (fst p) (snd p)) r ++ l) = (r, l).
Proof.
  intros H. induction r as [|[a b] r IH]; cbn [map app take_run fst snd].
  - destruct l as [|[| | |a b] l']; try reflexivity. now elim (H a b l').
  - now rewrite IH.
Qed.
Lemma loc_run r l : r <> [] -> (forall a b l', l <> LTwo a b :: l') ->
  loc (map (fun p => LTwo (fst p) (snd p)) r ++ l) = do us <- resolve_run r; do s <- loc l; Ok (map Some us ++ s).
Proof.
  intros Hr Hl. assert (E := take_run_app r l Hl). destruct r as [|[a b] r]; [congruence|].
  unfold loc at 1. cbn [map app fst snd List.length localize_classes] in *. rewrite E.
  destruct (resolve_run _); cbn [rbind]; [|reflexivity].
  rewrite (loc_fuel _ (List.length l) l); [reflexivity| |lia]. rewrite app_length. lia.
Qed.

Definition utc_of (x : option (Z * Z)) : option Z := match x with Some (w, o) => Some (w - o) | None => None end.

Lemma loc_plain z l rest : zone_wf z -> outside_folds z l ->
  loc (map (classify z) (map (option_map fst) l) ++ rest) = do s <- loc rest; Ok (map utc_of l ++ s).
Proof.
  intros Hwf H. induction l as [|[[w o]|] l IH].
  - cbn [map app]. destruct (loc rest) as [r|e]; reflexivity.
  - destruct (H w o (or_introl eq_refl)) as [Ho Hu]. cbn [map option_map fst app classify utc_of].
    rewrite (candidates_one z w (w - o) Hwf Hu) by (unfold reading; lia).
    rewrite loc_one, IH by (intros ? ? ?; apply H; now right). destruct (loc rest); reflexivity.
  - cbn [map option_map app classify utc_of]. rewrite loc_nat, IH by (intros ? ? ?; apply H; now right). destruct (loc rest); reflexivity.
Qed.

(** Inside the fold. *)
Lemma fold_classify z W0 W1 o1 o2 w : zone_wf z -> repeated_hour z W0 W1 o1 o2 -> W0 <= w < W1 ->
  classify z (Some w) = LTwo (w - o1) (w - o2).
Proof.
  intros Hwf [Ho Hf] Hw. assert (Hamb : ambiguous z w).
  { exists (w - o1), (w - o2). split; [lia|]. split; apply Hf; auto. }
  destruct (candidates_many z w Hwf Hamb) as (a & b & Hab & -> & Ha & Hb).
  apply Hf in Ha, Hb; try exact Hw. f_equal; lia.
Qed.

Lemma switches_none i prev r : Sorted Z.lt (prev :: map fst r) -> switches i prev r = [].
Proof.
  revert i prev. induction r as [|[a b] r IH]; intros i prev H; cbn [switches]; [reflexivity|].
  cbn [map fst] in H. inversion H as [|x y Hs Hh]; subst. inversion Hh; subst.
  destruct (Z.leb_spec (a - prev) 0); [lia|]. apply IH. exact Hs.
Qed.
Lemma switches_one i prev r1 a b r2 : Sorted Z.lt (prev :: map fst r1) -> a <= last (prev :: map fst r1) prev -> Sorted Z.lt (a :: map fst r2) ->
  switches i prev (r1 ++ (a, b) :: r2) = [i + List.length r1]%nat.
Proof.
  revert i prev. induction r1 as [|[c d] r1 IH]; intros i prev H1 Hl H2; cbn [app switches map fst List.length] in *.
  - cbn in Hl. destruct (Z.leb_spec (a - prev) 0); [|lia]. rewrite switches_none by exact H2. f_equal; lia.
  - inversion H1 as [|x y Hs Hh]; subst. inversion Hh; subst. destruct (Z.leb_spec (c - prev) 0); [lia|].
    rewrite IH; [f_equal; lia|exact Hs| |exact H2].
    destruct (map fst r1) as [|e l] eqn:E; [exact Hl|]. clear - Hl.
    assert (K : forall d1 d2, last (e :: l) d1 = last (e :: l) d2).
    { clear. revert e. induction l as [|x l IH]; intros e d1 d2; [reflexivity|]. change (last (x :: l) d1 = last (x :: l) d2). apply IH. }
    change (last (c :: e :: l) c) with (last (e :: l) c). change (last (prev :: c :: e :: l) prev) with (last (e :: l) prev) in Hl. now rewrite (K c prev).
Qed.

Lemma last_map {A B} (f : A -> B) l d : last (map f l) (f d) = f (last l d).
Proof. induction l as [|x [|y l] IH]; [reflexivity|reflexivity|]. exact IH. Qed.
Lemma Sorted_map_sub (o : Z) l : Sorted Z.lt l -> Sorted Z.lt (map (fun w => w - o) l).
Proof.
  induction 1 as [|x l Hs IH Hh]; cbn; constructor; [exact IH|]. destruct Hh; cbn; constructor. lia.
Qed.

Section Fold.
  Variables (z : zone) (W0 W1 o1 o2 : Z).
  Hypothesis Hwf : zone_wf z.
  Hypothesis Hfold : repeated_hour z W0 W1 o1 o2.
  Let pair (w : Z) : Z * Z := (w - o1, w - o2).
  Definition in_fold (ws : list Z) : Prop := forall w, In w ws -> W0 <= w < W1.

  Lemma classify_fold ws rest : in_fold ws ->
    map (classify z) (map Some ws) ++ rest = map (fun p => LTwo (fst p) (snd p)) (map pair ws) ++ rest.
  Proof.
    intros H. f_equal. rewrite !map_map. apply map_ext_in. intros w Hw. cbn [pair fst snd].
    exact (fold_classify z W0 W1 o1 o2 w Hwf Hfold (H w Hw)).
  Qed.
  Lemma not_two post : outside_folds z post -> forall a b l', map (classify z) (map (option_map fst) post) <> LTwo a b :: l'.
  Proof.
    intros H a b l'. destruct post as [|[[w o]|] post]; cbn [map option_map fst classify]; try discriminate.
    destruct (H w o (or_introl eq_refl)) as [Ho Hu]. rewrite (candidates_one z w (w - o) Hwf Hu) by (unfold reading; lia). discriminate.
  Qed.

  Lemma localize_fold pre ws post us : ws <> [] -> in_fold ws -> outside_folds z pre -> outside_folds z post ->
    resolve_run (map pair ws) = us ->
    tz_localize z (map (option_map fst) pre ++ map Some ws ++ map (option_map fst) post)
    = do us <- us; Ok (map utc_of pre ++ map Some us ++ map utc_of post).
  Proof.
    intros Hne Hin Hpre Hpost <-. change (tz_localize z) with (fun l => loc (map (classify z) l)). cbv beta.
    rewrite !map_app, (loc_plain z pre _ Hwf Hpre), (classify_fold ws _ Hin).
    rewrite loc_run; [|destruct ws; [congruence|discriminate]|apply not_two; exact Hpost].
    assert (E := loc_plain z post [] Hwf Hpost). rewrite app_nil_r in E. rewrite E. cbn [rbind loc List.length localize_classes]. rewrite app_nil_r.
    destruct (resolve_run _); reflexivity.
  Qed.

  (** Strictly increasing readings: no place where the clock goes back. *)
  Lemma resolve_increasing ws : ws <> [] -> Sorted Z.lt ws -> resolve_run (map pair ws) = Raise AmbiguousTimeError.
  Proof.
    intros Hne Hs. destruct ws as [|w ws]; [congruence|]. cbn [map pair resolve_run].
    rewrite switches_none; [reflexivity|]. rewrite map_map. cbn [pair fst].
    apply (Sorted_map_sub o1) in Hs. exact Hs.
  Qed.
  (** Both passes, the second starting at or before the end of the first. *)
  Lemma resolve_passes ws1 w2 ws2 d : ws1 <> [] -> Sorted Z.lt ws1 -> Sorted Z.lt (w2 :: ws2) -> w2 <= last ws1 d ->
    resolve_run (map pair (ws1 ++ w2 :: ws2)) = Ok (map (fun w => w - o1) ws1 ++ map (fun w => w - o2) (w2 :: ws2)).
  Proof.
    intros Hne H1 H2 Hl. destruct ws1 as [|w ws1]; [congruence|]. cbn [app map resolve_run].
    unfold pair at 1. rewrite map_app. cbn [map]. unfold pair at 2.
    rewrite switches_one.
    - cbn [Nat.add]. rewrite map_length. change (pair w :: map pair ws1 ++ pair w2 :: map pair ws2) with (map pair (w :: ws1) ++ map pair (w2 :: ws2)).
      replace (S (List.length ws1)) with (List.length (map pair (w :: ws1))) by (rewrite map_length; reflexivity).
      rewrite firstn_app, Nat.sub_diag, firstn_all, firstn_O, app_nil_r, skipn_app, Nat.sub_diag, skipn_all, skipn_O. cbn [app].
      rewrite !map_map. reflexivity.
    - rewrite map_map. apply (Sorted_map_sub o1) in H1. exact H1.
    - rewrite map_map. cbn [pair fst].
      change (w - o1 :: map (fun x : Z => x - o1) ws1) with (map (fun x => x - o1) (w :: ws1)).
      replace (last _ _) with (last (w :: ws1) w - o1) by (symmetry; apply (last_map (fun x => x - o1))).
      assert (K : forall d1 d2 a (l : list Z), last (a :: l) d1 = last (a :: l) d2).
      { clear. intros d1 d2 a l. revert a. induction l as [|x l IH]; intros a; [reflexivity|]. change (last (x :: l) d1 = last (x :: l) d2). apply IH. }
      rewrite (K w d). lia.
    - rewrite map_map. apply (Sorted_map_sub o1) in H2. exact H2.
  Qed.
  (** Two readings in decreasing order count as the two passes. *)
  Lemma resolve_descending w w' : w' <= w -> resolve_run (map pair [w; w']) = Ok [w - o1; w' - o2].
  Proof. intros H. cbn [map pair resolve_run switches]. destruct (Z.leb_spec (w' - o1 - (w - o1)) 0); [|lia]. reflexivity. Qed.
End Fold.

Section Calls.
  Context {F : Type} {O : Ops F}.
  Variable ne : bool.
  Variables (z : zone) (W0 W1 o1 o2 : Z).
  Hypothesis Hwf : zone_wf z.
  Hypothesis Hfold : repeated_hour z W0 W1 o1 o2.

  Lemma walls_read o ws : map (option_map fst) (read_with o ws) = map Some ws.
  Proof. unfold read_with. rewrite map_map. reflexivity. Qed.
  Lemma utc_read o ws : map utc_of (read_with o ws) = map Some (map (fun w => w - o) ws).
  Proof. unfold read_with. rewrite !map_map. reflexivity. Qed.

  Lemma fold_series uc s nm pre ws1 w2 ws2 post d lat lon alg refr eng sp :
    let t := TAware s (PytzNamed nm z) (pre ++ read_with o1 ws1 ++ read_with o2 (w2 :: ws2) ++ post) in
    outside_folds z pre -> outside_folds z post ->
    (forall w, In w (ws1 ++ w2 :: ws2) -> W0 <= w < W1) ->
    ws1 <> [] -> Sorted Z.lt ws1 -> Sorted Z.lt (w2 :: ws2) -> w2 <= last ws1 d ->
    call (F:=F) ne uc (at_times (instants t)) lat lon alg refr eng = Ok sp ->
    exists sp', call ne uc t lat lon alg refr eng = Ok sp' /\ same_outputs sp sp' /\ sp_times_utc sp' = instants t.
  Proof.
    intros t Hpre Hpost Hin Hne H1 H2 Hl H.
    destruct (call_aware_ctor ne uc t lat lon alg refr eng sp H ltac:(discriminate)) as [_ K].
    destruct (K nm (map (option_map fst) (pre ++ read_with o1 ws1 ++ read_with o2 (w2 :: ws2) ++ post)) (instants t)) as (sp' & Hc & Hs & Hu & _).
    - unfold t, ctor_times. cbn [walls rbind]. rewrite !map_app, !walls_read.
      assert (E := localize_fold z W0 W1 o1 o2 Hwf Hfold pre (ws1 ++ w2 :: ws2) post _ ltac:(destruct ws1; discriminate) Hin Hpre Hpost
        (resolve_passes o1 o2 ws1 w2 ws2 d Hne H1 H2 Hl)).
      rewrite map_app, <- !app_assoc in E. cbn [rbind] in E. rewrite E. cbn [rbind]. f_equal. f_equal.
      cbn [instants]. change (fun x : option (Z * Z) => match x with Some (w, o) => Some (w - o) | None => None end) with utc_of.
      rewrite !map_app, !utc_read, <- !app_assoc. reflexivity.
    - exists sp'. auto.
  Qed.

  Lemma fold_increasing uc s nm pre ws1 ws2 post lat lon alg refr eng sp :
    let t := TAware s (PytzNamed nm z) (pre ++ read_with o1 ws1 ++ read_with o2 ws2 ++ post) in
    outside_folds z pre -> outside_folds z post ->
    (forall w, In w (ws1 ++ ws2) -> W0 <= w < W1) ->
    ws1 ++ ws2 <> [] -> Sorted Z.lt (ws1 ++ ws2) ->
    call (F:=F) ne uc (at_times (instants t)) lat lon alg refr eng = Ok sp ->
    call ne uc t lat lon alg refr eng = Raise AmbiguousTimeError.
  Proof.
    intros t Hpre Hpost Hin Hne Hs H.
    destruct (call_aware_ctor ne uc t lat lon alg refr eng sp H ltac:(discriminate)) as [K _]. apply K.
    unfold t, ctor_times. cbn [walls rbind]. rewrite !map_app, !walls_read.
    assert (E := localize_fold z W0 W1 o1 o2 Hwf Hfold pre (ws1 ++ ws2) post _ Hne Hin Hpre Hpost (resolve_increasing o1 o2 _ Hne Hs)).
    rewrite map_app, <- !app_assoc in E. rewrite E. reflexivity.
  Qed.

  Lemma fold_descending uc s nm w w' lat lon alg refr eng sp :
    let t := TAware s (PytzNamed nm z) [Some (w, o2); Some (w', o2)] in
    W0 <= w < W1 -> W0 <= w' < W1 -> w' < w ->
    call (F:=F) ne uc (at_times (instants t)) lat lon alg refr eng = Ok sp ->
    exists sp', call ne uc t lat lon alg refr eng = Ok sp' /\ same_outputs sp sp' /\
      instants t = [Some (w - o2); Some (w' - o2)] /\ sp_times_utc sp' = [Some (w - o1); Some (w' - o2)] /\ w - o1 <> w - o2.
  Proof.
    intros t Hw Hw' Hd H.
    destruct (call_aware_ctor ne uc t lat lon alg refr eng sp H ltac:(discriminate)) as [_ K].
    destruct (K nm [Some w; Some w'] [Some (w - o1); Some (w' - o2)]) as (sp' & Hc & Hs & Hu & _).
    - unfold t, ctor_times. cbn [walls rbind map option_map fst].
      assert (Hin : in_fold W0 W1 [w; w']) by (intros x [<-|[<-|[]]]; assumption).
      assert (E := localize_fold z W0 W1 o1 o2 Hwf Hfold [] [w; w'] [] _ ltac:(discriminate) Hin ltac:(intros ? ? []) ltac:(intros ? ? [])
        (resolve_descending o1 o2 w w' ltac:(lia))).
      cbn [map app rbind] in E. rewrite E. reflexivity.
    - exists sp'. destruct Hfold as [Ho _]. repeat split; try assumption; try apply Hs. lia.
  Qed.
End Calls.

Lemma berlin_repeated : repeated_hour berlin2024 (1729990800 * NS_PER_S + H1) (1729990800 * NS_PER_S + 2 * H1) (2 * H1) H1.
Proof.
  split; [reflexivity|]. intros w Hw u. unfold reading. cbn -[Z.mul Z.add NS_PER_S H1]. unfold H1, NS_PER_S in *.
  destruct (Z.leb_spec (1711846800 * 1000000000) u), (Z.ltb_spec u (1729990800 * 1000000000)); cbn [andb]; lia.
Qed.
