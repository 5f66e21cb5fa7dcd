(** * PropAlmanac: the sun of the almanac (C27) and the agreement of the four algorithms (C55) *)
From Coq Require Import ZArith QArith Reals Bool List String Lra Lia.
From Flocq Require Import Core.Raux.
From Interval Require Import Tactic.
From Verif Require Import Num Arrays Libspa Time Core Usecases Spec GenericLemmas GenericLemmas2 TimeLemmas Ext ExtLemmas Witness
  AstroTac Sky SkyClose AstroSpec Astro AstroCell AstroCall AstroRefute Float32 PropAstro Psa PsaR Soltrack SoltrackR Iqbal IqbalR Nrel NrelR
  CalendarSpec CalendarLemmas PropCalendar Almanac AlmanacR AlmanacN AlmanacSky AlmanacTime AlmanacIqbal AlmanacPos.
Import ListNotations.
Open Scope R_scope.

Lemma centuries_TT t : centuries t = TT (IZR (t / 1000000000)).
Proof. reflexivity. Qed.
Lemma centuries_b t : representable t -> -3.223 <= centuries t <= 2.623.
Proof. intros H. rewrite centuries_TT. apply TT_b, (sec_range t H). Qed.
Lemma recip_close r r' e : 0.98 <= r <= 1.02 -> Rabs (r - r') <= e -> e <= 0.0003 -> Rabs (1 / r ^ 2 - 1 / r' ^ 2) <= 2.15 * e.
Proof.
  intros B H He. apply Rabs_le_inv in H. assert (B' : 0.979 <= r' <= 1.021) by lra.
  replace (1 / r ^ 2 - 1 / r' ^ 2) with ((r - r') * (- ((r + r') / (r ^ 2 * r' ^ 2)))) by (field; lra).
  rewrite Rabs_mult, Rabs_Ropp. assert (0 <= (r + r') / (r ^ 2 * r' ^ 2) <= 2.15).
  { replace ((r + r') / (r ^ 2 * r' ^ 2)) with (/ r * / r' * (/ r + / r')) by (field; lra). 
    split; interval with (i_bisect r, i_bisect r'). }
  rewrite (Rabs_pos_eq ((r + r') / _)) by lra. assert (Rabs (r - r') <= e) by (apply Rabs_le; lra). pose proof (Rabs_pos (r - r')). nra.
Qed.

(** What psa, soltrack and nrel return at an instant. *)
Definition time_is (E : Env) (m : spalib ext) (s : Z) (d eot ecf : R) : Prop :=
  lib_dec m (lib_time m s) = Fin d /\ lib_eot m (lib_time m s) = Fin eot /\ lib_ecf m (lib_time m s) = Fin ecf.
Section Values.
  Variables (E : Env) (s : Z).
  Hypothesis Hs : in_ns_range (IZR s).
  Lemma py_psa_is : time_is E (py_psa (O := ExtOps E)) s (p_delta (IZR s)) (p_eot (IZR s)) (p_ecf (IZR s)).
  Proof. unfold time_is. cbn [py_psa lib_T lib_time lib_dec lib_eot lib_ecf ofZ]. change (ofZ (Ops := ExtOps E) s) with (Fin (IZR s)). rewrite py_psa_time_R by exact Hs. repeat split; reflexivity. Qed.
  Lemma ne_psa_is : time_is E (ne_psa (O := ExtOps E)) s (p_delta (IZR s)) (p_eot (IZR s)) (p_ecf (IZR s)).
  Proof. unfold time_is. cbn [ne_psa lib_T lib_time lib_dec lib_eot lib_ecf ofZ]. change (ofZ (Ops := ExtOps E) s) with (Fin (IZR s)). rewrite ne_psa_time_R' by exact Hs. repeat split; reflexivity. Qed.
  Lemma py_soltrack_is : time_is E (py_soltrack (O := ExtOps E)) s (t_dec Rfloor_mod (IZR s)) (t_eot Rfloor_mod (IZR s)) (t_ecf (IZR s)).
  Proof. unfold time_is. cbn [py_soltrack lib_T lib_time lib_dec lib_eot lib_ecf ofZ]. change (ofZ (Ops := ExtOps E) s) with (Fin (IZR s)). rewrite py_soltrack_time_R by exact Hs. repeat split; reflexivity. Qed.
  Lemma ne_soltrack_is : time_is E (ne_soltrack (O := ExtOps E)) s (t_dec (nem E) (IZR s)) (t_eot (nem E) (IZR s)) (t_ecf (IZR s)).
  Proof. unfold time_is. cbn [ne_soltrack lib_T lib_time lib_dec lib_eot lib_ecf ofZ]. change (ofZ (Ops := ExtOps E) s) with (Fin (IZR s)). rewrite ne_soltrack_time_R by exact Hs. repeat split; reflexivity. Qed.
  Lemma ne_nrel_is : time_is E (ne_nrel (O := ExtOps E)) s (n_delta (nem E) (IZR s)) (n_eot (nem E) (IZR s)) (n_ecf (IZR s)).
  Proof.
    unfold time_is. cbn [ne_nrel lib_T lib_time lib_dec lib_eot lib_ecf ofZ]. change (ofZ (Ops := ExtOps E) s) with (Fin (IZR s)). rewrite ne_nrel_time_R by exact Hs. split; [reflexivity|]. split; [reflexivity|].
    unfold nrel_ecf. cbn [nr_R]. ext_ops. rewrite fin_powi, fin_div by (apply n_R2_nz; exact Hs). reflexivity.
  Qed.
  Lemma psa_ecf_al : Rabs (p_ecf (IZR s) - 1 / al_R (TT (IZR s)) ^ 2) <= 0.0000005.
  Proof.
    assert (RS := sol_R_near (IZR s) Hs). assert (BR := t_R_b (IZR s) Hs). unfold p_ecf. rewrite psa_sol_R. replace (#1.0) with 1 by q2r.
    eapply Rle_trans; [apply (recip_close _ _ 0.0000002); lra|]. lra.
  Qed.
  Lemma sol_ecf_al : Rabs (t_ecf (IZR s) - 1 / al_R (TT (IZR s)) ^ 2) <= 0.0000005.
  Proof.
    assert (RS := sol_R_near (IZR s) Hs). assert (BR := t_R_b (IZR s) Hs). unfold t_ecf. replace (#1) with 1 by q2r.
    eapply Rle_trans; [apply (recip_close _ _ 0.0000002); lra|]. lra.
  Qed.
  Lemma nrel_ecf_al : Rabs (n_ecf (IZR s) - 1 / al_R (TT (IZR s)) ^ 2) <= 0.00048.
  Proof.
    assert (RN := nrel_R_near (IZR s) Hs). assert (BN := n_R_b (IZR s) Hs). unfold n_ecf. replace (#1) with 1 by q2r.
    eapply Rle_trans; [apply (recip_close _ _ 0.00022); lra|]. lra.
  Qed.
End Values.
Definition elements_of (alg : string) (T d eot ecf : R) : Prop :=
  elements T (lon_tol alg T) (obl_tol alg) (lat_tol alg) (mean_tol alg T) d eot /\ Rabs (ecf - 1 / al_R T ^ 2) <= ecf_tol alg.
Lemma time_elements E alg eng m t : In (alg, eng, m) (supported (O := ExtOps E)) -> representable t -> alg <> "iqbal"%string ->
  exists d eot ecf, time_is E m (t / 1000000000) d eot ecf /\ elements_of alg (centuries t) d eot ecf.
Proof.
  intros Hin Ht Ha. assert (Hs := sec_range t Ht). unfold sec_of in Hs. rewrite centuries_TT. generalize dependent (t / 1000000000)%Z. intros s Hs.
  cbn [supported In] in Hin.
  destruct Hin as [H|[H|[H|[H|[H|[H|[H|[]]]]]]]]; injection H as <- <- <-; try (exfalso; apply Ha; reflexivity); do 3 eexists.
  - split; [exact (py_psa_is E s Hs)|]. split; [exact (psa_elements (IZR s) Hs)|exact (psa_ecf_al s Hs)].
  - split; [exact (ne_psa_is E s Hs)|]. split; [exact (psa_elements (IZR s) Hs)|exact (psa_ecf_al s Hs)].
  - split; [exact (py_soltrack_is E s Hs)|]. split; [exact (sol_elements _ floor_mod_mod_spec (IZR s) Hs)|exact (sol_ecf_al s Hs)].
  - split; [exact (ne_soltrack_is E s Hs)|]. split; [exact (sol_elements _ (nem_mod_spec E) (IZR s) Hs)|exact (sol_ecf_al s Hs)].
  - split; [exact (ne_nrel_is E s Hs)|]. split; [exact (nrel_elements _ (nem_mod_spec E) (IZR s) Hs)|exact (nrel_ecf_al s Hs)].
Qed.
Lemma call_elements E uc times lat lon alg refr eng sp k t :
  evaluated_time E uc times lat lon alg refr eng sp k t -> alg <> "iqbal"%string ->
  exists d eot ecf, value (sp_declination sp) [k] d /\ value (sp_eot sp) [k] eot /\ value (sp_ecf sp) [k] ecf /\ Rabs eot <= 20 /\
    elements_of alg (centuries t) d eot ecf.
Proof.
  intros (Hcall & Hk & Ht) Ha. destruct (call_supported _ _ _ _ _ _ _ _ _ Hcall) as (m & Hin).
  destruct (dispatch_lemma (O := ExtOps E) true uc times lat lon alg refr eng sp m k t NaN NaN Hcall Hin Hk) as (H1 & H2 & H3 & _).
  destruct (time_elements E alg eng m t Hin Ht Ha) as (d & eot & ecf & (V1 & V2 & V3) & He).
  destruct (C26_eot_bound E uc times lat lon alg refr eng sp k t (conj Hcall (conj Hk Ht))) as (x & Hx & Bx).
  exists d, eot, ecf. unfold value in *. rewrite H2, V2 in Hx. injection Hx as <-. rewrite H1, H2, H3, V1, V2, V3. auto.
Qed.

(** ** C27: declination and equation of time of psa, soltrack and nrel are those of a point of the sky (right ascension and
    declination of an ecliptic position, four minutes per degree between mean longitude and right ascension), and that
    ecliptic position, obliquity and mean longitude are the almanac's within fixed tolerances, 1677-2262. *)
Theorem C27_elements : forall E uc times lat lon alg refr eng sp k t,
  evaluated_time E uc times lat lon alg refr eng sp k t -> alg <> "iqbal"%string ->
  exists d m, value (sp_declination sp) [k] d /\ value (sp_eot sp) [k] m /\ Rabs m <= 20 /\
    elements (centuries t) (lon_tol alg (centuries t)) (obl_tol alg) (lat_tol alg) (mean_tol alg (centuries t)) d m.
Proof.
  intros E uc times lat lon alg refr eng sp k t H Ha.
  destruct (call_elements E uc times lat lon alg refr eng sp k t H Ha) as (d & eot & ecf & H1 & H2 & _ & B & He & _). now exists d, eot.
Qed.

(** ** C55: the almanac's declination, equation of time and distance, for the four algorithms *)
Theorem C55_almanac : forall E uc times lat lon alg refr eng sp k t,
  evaluated_time E uc times lat lon alg refr eng sp k t ->
  exists d m x m', let T := centuries t in
    value (sp_declination sp) [k] d /\ value (sp_eot sp) [k] m /\ value (sp_ecf sp) [k] x /\ al_eot T m' /\
    Rabs (d - al_dec T) <= dec_tol alg T /\ Rabs (m - m') <= eot_tol alg T /\ Rabs (x - 1 / al_R T ^ 2) <= ecf_tol alg.
Proof.
  intros E uc times lat lon alg refr eng sp k t He. assert (He' := He). destruct He as (Hcall & Hk & Ht). assert (BT := centuries_b t Ht).
  destruct (al_eot_exists (centuries t) BT) as (m' & Hm').
  destruct (string_dec alg "iqbal") as [->|Ha].
  - destruct (C30_iqbal_series _ _ _ _ _ _ _ _ _ _ _ gregorian_calendar He') as (y & Hy & V1 & V2 & V3).
    assert (Hs : (-9223372037 <= t / 1000000000 <= 9223372037)%Z) by (destruct Ht; split; [apply Z.div_le_lower_bound; lia|apply Z.div_le_upper_bound; lia]).
    do 3 eexists. exists m'. cbv zeta. split; [exact V1|]. split; [exact V2|]. split; [exact V3|]. split; [exact Hm'|].
    rewrite centuries_TT in Hm' |- *. split; [|split].
    + exact (iqbal_dec_near gregorian y _ gregorian_calendar Hs Hy).
    + exact (iqbal_eot_near gregorian y _ gregorian_calendar Hs Hy m' Hm').
    + exact (iqbal_ecf_near gregorian y _ gregorian_calendar Hs Hy).
  - destruct (call_elements E uc times lat lon alg refr eng sp k t He' Ha) as (d & eot & ecf & H1 & H2 & H3 & Hb & Hel & Hec).
    exists d, eot, ecf, m'. cbv zeta. split; [exact H1|]. split; [exact H2|]. split; [exact H3|]. split; [exact Hm'|].
    destruct (call_supported _ _ _ _ _ _ _ _ _ Hcall) as (m & Hin).
    assert (BA : 0 <= Rabs (centuries t) <= 3.3) by (split; [apply Rabs_pos|apply Rabs_le; lra]).
    assert (G : lon_tol alg (centuries t) <= 0.005 /\ obl_tol alg <= 0.0003 /\ lat_tol alg <= 0.001 /\ mean_tol alg (centuries t) <= 0.1 /\
      0.4375 * lon_tol alg (centuries t) + 1.007 * obl_tol alg + 1.008 * lat_tol alg <= dec_tol alg (centuries t) /\
      229.2 * (mean_tol alg (centuries t) + (1.112 * lon_tol alg (centuries t) + 0.485 * obl_tol alg + 0.485 * lat_tol alg)) <= eot_tol alg (centuries t)).
    { clear - Hin Ha BA.
      unfold lon_tol, obl_tol, lat_tol, mean_tol, dec_tol, eot_tol. cbn [supported In] in Hin.
      destruct Hin as [H|[H|[H|[H|[H|[H|[H|[]]]]]]]]; injection H as <- _ _; try (exfalso; apply Ha; reflexivity); cbn [String.eqb Ascii.eqb Bool.eqb]; generalize dependent (Rabs (centuries t)); clear; intros; lra. }
    destruct G as (G1 & G2 & G3 & G4 & G5 & G6). split; [|split; [|exact Hec]].
    + eapply Rle_trans; [|exact G5]. exact (elements_dec _ _ _ _ _ _ _ BT G1 G2 G3 Hel).
    + eapply Rle_trans; [|exact G6]. exact (elements_eot _ _ _ _ _ _ _ _ BT G1 G2 G3 G4 Hel Hb Hm').
Qed.

(** Two calls that evaluate the same instant, whatever else differs: their location-independent results agree. *)
Theorem C55_agree : forall E E' uc uc' times times' lat lat' lon lon' alg alg' refr refr' eng eng' sp sp' k k' t,
  evaluated_time E uc times lat lon alg refr eng sp k t ->
  evaluated_time E' uc' times' lat' lon' alg' refr' eng' sp' k' t ->
  exists d m x d' m' x', let T := centuries t in
    value (sp_declination sp) [k] d /\ value (sp_eot sp) [k] m /\ value (sp_ecf sp) [k] x /\
    value (sp_declination sp') [k'] d' /\ value (sp_eot sp') [k'] m' /\ value (sp_ecf sp') [k'] x' /\
    Rabs (d - d') <= dec_tol alg T + dec_tol alg' T /\ Rabs (m - m') <= eot_tol alg T + eot_tol alg' T /\
    Rabs (x - x') <= ecf_tol alg + ecf_tol alg'.
Proof.
  intros E E' uc uc' times times' lat lat' lon lon' alg alg' refr refr' eng eng' sp sp' k k' t H H'.
  destruct (C55_almanac _ _ _ _ _ _ _ _ _ _ _ H) as (d & m & x & n & V1 & V2 & V3 & A & D1 & D2 & D3).
  destruct (C55_almanac _ _ _ _ _ _ _ _ _ _ _ H') as (d' & m' & x' & n' & V1' & V2' & V3' & A' & D1' & D2' & D3').
  assert (n' = n).
  { destruct A as (Bn & a & Q & Em), A' as (Bn' & a' & Q' & Em'). assert (BT := centuries_b t (proj2 (proj2 H))). assert (Bo := al_obl_b _ BT).
    assert (C := eot_close (al_L0 (centuries t)) a n (al_L0 (centuries t)) a' n' 0 0 Em Em').
    assert (Z : Rabs (n - n') <= 229.2 * (0 + 0)).
    { apply C; try assumption; [rewrite Rminus_eq_0, Rabs_R0; lra| |lra].
      assert (R := ra_close _ 0 _ a _ _ _ a' _ 0 0 0 Q Q'). replace 0 with (1.112 * 0 + 0.485 * 0 + 0.485 * 0) by lra. apply R; clear - Bo.
      all: try (rewrite ?Rminus_eq_0, Rabs_R0); try lra.
      exists 0%Z. rewrite Rmult_0_r, !Rminus_0_r, Rminus_eq_0, Rabs_R0. lra. }
    pose proof (Rabs_pos (n - n')). destruct (Req_dec (n - n') 0) as [|Hn]; [lra|]. apply Rabs_no_R0 in Hn. lra. }
  subst n'. exists d, m, x, d', m', x'. cbv zeta. do 6 (split; [assumption|]).
  apply Rabs_le_inv in D1, D2, D3, D1', D2', D3'. repeat split; apply Rabs_le; lra.
Qed.

(** ... and so do the positions of the sun at the same place, as directions and hence in zenith angle. *)
Lemma place_tol_b alg eng T : -3.223 <= T <= 2.623 -> 0 <= place_tol alg eng T <= 0.03.
Proof.
  intros B. assert (BA : 0 <= Rabs T <= 3.3) by (split; [apply Rabs_pos|apply Rabs_le; lra]). assert (C : 0.00436 <= PI / 720 <= 0.00437) by (split; interval).
  unfold place_tol, dec_tol, eot_tol, hour_tol, parallax_tol. revert BA C. generalize (Rabs T) (PI / 720). intros q c BA C.
  destruct (String.eqb_spec alg "psa") as [->|]; [cbn [String.eqb Ascii.eqb Bool.eqb]; destruct (String.eqb eng "numpy"); nra|].
  destruct (String.eqb_spec alg "soltrack") as [->|]; [cbn [String.eqb Ascii.eqb Bool.eqb]; nra|].
  destruct (String.eqb_spec alg "nrel") as [->|]; [cbn [String.eqb Ascii.eqb Bool.eqb]; nra|].
  destruct (String.eqb alg "iqbal"); nra.
Qed.
Theorem C55_positions : forall E E' uc uc' times times' lat lat' lon lon' alg alg' refr refr' eng eng' sp sp' k k' j j' i i' t la lo,
  ideal E -> ideal E' -> is_True refr = false -> is_True refr' = false ->
  evaluated_cell E uc times lat lon alg refr eng sp k j i t la lo ->
  evaluated_cell E' uc' times' lat' lon' alg' refr' eng' sp' k' j' i' t la lo ->
  exists z a z' a', let tau := 1.002 * (place_tol alg eng (centuries t) + place_tol alg' eng' (centuries t)) in
    value (sp_zenith sp) (idx uc k j i) z /\ value (sp_azimuth sp) (idx uc k j i) a /\
    value (sp_zenith sp') (idx uc' k' j' i') z' /\ value (sp_azimuth sp') (idx uc' k' j' i') a' /\
    separation_le z a z' a' tau /\ Rabs (z - z') <= tau.
Proof.
  intros E E' uc uc' times times' lat lat' lon lon' alg alg' refr refr' eng eng' sp sp' k k' j j' i i' t la lo I I' R R' H H'.
  destruct (C55_agree _ _ _ _ _ _ _ _ _ _ _ _ _ _ _ _ _ _ _ _ _ (proj1 H) (proj1 H')) as (d & m & x & d' & m' & x' & V1 & V2 & V3 & V1' & V2' & V3' & D1 & D2 & _).
  destruct H as ((Hc & Hk & Ht) & Hi), H' as ((Hc' & Hk' & Ht') & Hi'). assert (BT := centuries_b t Ht). set (T := centuries t) in *.
  destruct (call_value E true uc times lat lon alg refr eng sp k t Hc Hk Ht j i la lo Hi (or_introl I)) as (d0 & m0 & x0 & h & z & a & W1 & W2 & W3 & W4 & W5 & W6 & W7 & W8 & _).
  destruct (call_value E' true uc' times' lat' lon' alg' refr' eng' sp' k' t Hc' Hk' Ht' j' i' la lo Hi' (or_introl I')) as (d0' & m0' & x0' & h' & z' & a' & W1' & W2' & W3' & W4' & W5' & W6' & W7' & W8' & _).
  unfold value in *. rewrite V1 in W1. rewrite V2 in W2. rewrite V3 in W3. rewrite V1' in W1'. rewrite V2' in W2'. rewrite V3' in W3'.
  injection W1 as <-. injection W2 as <-. injection W3 as <-. injection W1' as <-. injection W2' as <-. injection W3' as <-.
  rewrite R in W4. rewrite R' in W4'.
  destruct (C25_ecf_bound E _ _ _ _ _ _ _ _ _ _ (conj Hc (conj Hk Ht))) as (x1 & X1 & Bx). unfold value in X1. rewrite V3 in X1. injection X1 as <-.
  destruct (C25_ecf_bound E' _ _ _ _ _ _ _ _ _ _ (conj Hc' (conj Hk' Ht'))) as (x2 & X2 & Bx'). unfold value in X2. rewrite V3' in X2. injection X2 as <-.
  assert (U : forall q, used E alg q = q) by (intros q; unfold used; destruct (String.eqb alg "nrel"); [reflexivity|apply I]).
  assert (U' : forall q, used E' alg' q = q) by (intros q; unfold used; destruct (String.eqb alg' "nrel"); [reflexivity|apply I']).
  rewrite U in W6, W7. rewrite U' in W6', W7'. set (phi := la * (PI / 180)) in *.
  assert (S1 := dist_sky alg eng phi d h x z a Bx W7). assert (S2 := dist_sky alg' eng' phi d' h' x' z' a' Bx' W7').
  assert (Hh : near_turn h h' (hour_tol alg + hour_tol alg' + (eot_tol alg T + eot_tol alg' T) * (PI / 720))).
  { destruct W6 as (q & Hq), W6' as (q' & Hq'). exists (q - q')%Z. rewrite minus_IZR.
    assert (E1 : solar_hour_angle t lo m - solar_hour_angle t lo m' = (m - m') * (PI / 720)) by (unfold solar_hour_angle; field).
    assert (P : 0 < PI / 720) by (assert (P := PI_RGT_0); lra).
    assert (D : Rabs ((m - m') * (PI / 720)) <= (eot_tol alg T + eot_tol alg' T) * (PI / 720)) by (rewrite Rabs_mult, (Rabs_pos_eq (PI / 720)) by lra; apply Rmult_le_compat_r; lra).
    rewrite <- E1 in D. apply Rabs_le_inv in Hq, Hq', D. apply Rabs_le. lra. }
  assert (S3 := dist_hor phi d h d' h' _ Hh).
  assert (S4 : dist (sky z a) (sky z' a') <= place_tol alg eng T + place_tol alg' eng' T).
  { eapply Rle_trans; [apply (dist_tri _ (hor phi d h))|]. assert (dist (hor phi d h) (sky z' a') <= dist (hor phi d h) (hor phi d' h') + dist (hor phi d' h') (sky z' a')) by apply dist_tri.
    rewrite (dist_sym (hor phi d' h')) in *. unfold place_tol. lra. }
  assert (B1 := place_tol_b alg eng T BT). assert (B2 := place_tol_b alg' eng' T BT).
  assert (Hs : separation_le z a z' a' (1.002 * (place_tol alg eng T + place_tol alg' eng' T))) by (apply dist_angle; [lra|exact S4]).
  exists z, a, z', a'. cbv zeta. do 4 (split; [assumption|]). split; [exact Hs|]. apply (separation_zenith _ a _ a'); try assumption. assert (3 < PI) by interval. lra.
Qed.

(** The hypotheses, for every pair of algorithm-engine pairs: 21 June 2024, 10:00 UTC, 40 N 3 W. *)
Example C55_example : forall uc uc' alg eng m alg' eng' m', In (alg, eng, m) (supported (O := ExtOps ideal_env)) -> In (alg', eng', m') (supported (O := ExtOps ideal_env)) ->
  exists sp sp', ideal ideal_env /\
    evaluated_cell ideal_env uc (at_times [Some w_t]) (Scalar (Fin 40)) (Scalar (Fin (-3))) alg RFalse eng sp 0 0 0 w_t 40 (-3) /\
    evaluated_cell ideal_env uc' (at_times [Some w_t]) (Scalar (Fin 40)) (Scalar (Fin (-3))) alg' RFalse eng' sp' 0 0 0 w_t 40 (-3).
Proof.
  intros uc uc' alg eng m alg' eng' m' H H'. destruct (w_cell ideal_env uc alg eng m RFalse H) as (sp & Hsp). destruct (w_cell ideal_env uc' alg' eng' m' RFalse H') as (sp' & Hsp').
  exists sp, sp'. split; [exact ideal_ideal|]. now split.
Qed.
(** In this century soltrack and nrel place the sun within 0.09 degrees of each other, psa/numexpr and nrel within 0.165 degrees, and iqbal and
    psa/numpy within 1.62 degrees. *)
Example C55_sizes : forall T, 0 <= T <= 1 ->
  1.002 * (place_tol "soltrack" "numexpr" T + place_tol "nrel" "numexpr" T) * (180 / PI) <= 0.0895 /\
  1.002 * (place_tol "psa" "numexpr" T + place_tol "nrel" "numexpr" T) * (180 / PI) <= 0.165 /\
  1.002 * (place_tol "iqbal" "numexpr" T + place_tol "psa" "numpy" T) * (180 / PI) <= 1.62.
Proof.
  intros T B. unfold place_tol, dec_tol, eot_tol, hour_tol, parallax_tol. cbn [String.eqb Ascii.eqb Bool.eqb]. rewrite Rabs_pos_eq by lra. repeat split; interval.
Qed.
