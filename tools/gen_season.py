"""Generates rocq/theories/SeasonR.v: bounds of the almanac and of iqbal's series over the months (by interval arithmetic)."""
import math, sys
OUT=sys.argv[1] if len(sys.argv)>1 else '/verif/rocq/theories'
lens=[31,28,31,30,31,30,31,31,30,31,30,31]
dec=[(-23.3,-16.7),(-17.8,-6.8),(-8.4,5.3),(3.7,15.8),(14.4,22.5),(21.6,23.6),(17.4,23.4),(7.5,18.7),(-4.0,9.1),(-15.2,-2.4),(-22.3,-13.7),(-23.6,-21.3)]
eot=[(-15.0,-1.4),(-15.5,-11.1),(-13.8,-2.7),(-5.2,4.2),(0.8,4.9),(-5.4,3.8),(-7.8,-2.0),(-7.7,1.5),(-1.6,11.5),(8.9,17.4),(9.0,17.4),(-5.6,12.9)]
ecf=[(1.026,1.037),(1.013,1.033),(.995,1.023),(.979,1.007),(.968,.990),(.965,.977),(.965,.975),(.968,.987),(.977,1.004),(.992,1.021),(1.010,1.033),(1.024,1.037)]
def r(v): return '(%s)'%v if v<0 else '%s'%v
def q(v,up):   # rational bound, rounded
    k=10**6; n=math.ceil(v*k) if up else math.floor(v*k)
    return '(%d / 1000000)'%n
out=[]
w=out.append
w(r'''(** * SeasonR: the sun by the month (generated by tools/gen_season.py; reals only)

    [x] is the sun's mean longitude in degrees, [T] centuries from 2000, [n] days since the start of the year. *)
From Coq Require Import ZArith Reals Lra Lia.
From Interval Require Import Tactic.
From Verif Require Import CalendarSpec SeasonSpec.
Open Scope R_scope.

Definition Mx (x T : R) : R := x + 77.06265 - 1.71954 * T - 0.0004569 * T ^ 2.
Definition Cx (x T : R) : R := let M := Mx x T * (PI / 180) in
  (1.914602 - 0.004817 * T - 0.000014 * T ^ 2) * sin M + (0.019993 - 0.000101 * T) * sin (2 * M) + 0.000289 * sin (3 * M).
Definition lx (x T : R) : R := (x + Cx x T - 0.00569) * (PI / 180).
Definition ox (T : R) : R := (23.439291 - 0.0130042 * T) * (PI / 180).
Definition ex (T : R) : R := 0.016708634 - 0.000042037 * T - 0.0000001267 * T ^ 2.
Definition sdec (x T : R) : R := sin (ox T) * sin (lx x T).
Definition cdec (x T : R) : R := sqrt (1 - sdec x T * sdec x T).
Definition seot (x T : R) : R := sin ((0.00569 - Cx x T) * (PI / 180)) + 2 * (sin (ox T / 2) * sin (ox T / 2)) * cos (x * (PI / 180)) * sin (lx x T).
Definition secf (x T : R) : R := 1 / (1.000001018 * (1 - ex T ^ 2) / (1 + ex T * cos ((Mx x T + Cx x T) * (PI / 180)))) ^ 2.
Definition se (m : R) : R := sin ((m / 4 + 0.0057183) * (PI / 180)).

(** The same with the slow variables (centuries) replaced by ranges, and angles taken from the equinox of March (g = 1) or of September (g = -1). *)
Definition fC (g u m c b e d : R) : R := c * (g * sin ((u + 77.06 + m) * d)) + b * sin (2 * ((u + 77.06 + m) * d)) + e.
Definition fl (g u m c b e d : R) : R := g * sin ((u + fC g u m c b e d - 0.00569) * d).
Definition fsd (g u m c b e d so : R) : R := so * fl g u m c b e d.
Definition feot (g u m c b e d y : R) : R := sin ((0.00569 - fC g u m c b e d) * d) + y * (g * cos (u * d)) * fl g u m c b e d.
Definition fecf (g u m c b e d k : R) : R := ((1 + k * (g * cos ((u + 77.06 + m + fC g u m c b e d) * d))) / (1.000001018 * (1 - k ^ 2))) ^ 2.
Definition slow (m c b e d so y k : R) : Prop :=
  -4.6 <= m <= 5.6 /\ 1.901 <= c <= 1.9303 /\ 0.0197 <= b <= 0.0204 /\ -0.0003 <= e <= 0.0003 /\ 0.0174532925 <= d <= 0.0174532926 /\
  0.3972 <= so <= 0.3985 /\ 0.08226 <= y <= 0.08283 /\ 0.0165 <= k <= 0.0169.
Lemma turn_sin (g s : R) a z : (g = 1 /\ s = 360) \/ (g = -1 /\ s = 540) -> a = z + s * (PI / 180) -> sin a = g * sin z /\ cos a = g * cos z.
Proof.
  intros [[-> ->]|[-> ->]] ->.
  - replace (z + 360 * (PI / 180)) with (z + 2 * PI) by field. rewrite sin_plus, cos_plus, sin_2PI, cos_2PI. split; ring.
  - replace (z + 540 * (PI / 180)) with ((z + PI) + 2 * PI) by field. rewrite (sin_plus (z + PI)), (cos_plus (z + PI)), sin_2PI, cos_2PI, neg_sin, neg_cos. split; ring.
Qed.
Lemma reduced x T g s : (g = 1 /\ s = 360) \/ (g = -1 /\ s = 540) -> -3.25 <= T <= 2.65 -> exists m c b e d so y k, slow m c b e d so y k /\
  sdec x T = fsd g (x - s) m c b e d so /\ seot x T = feot g (x - s) m c b e d y /\ secf x T = fecf g (x - s) m c b e d k.
Proof.
  intros Hg HT. set (d := PI / 180).
  exists (0.00265 - 1.71954 * T - 0.0004569 * T ^ 2), (1.914602 - 0.004817 * T - 0.000014 * T ^ 2), (0.019993 - 0.000101 * T), (0.000289 * sin (3 * (Mx x T * d))), d,
    (sin (ox T)), (2 * (sin (ox T / 2) * sin (ox T / 2))), (ex T).
  set (m := 0.00265 - 1.71954 * T - 0.0004569 * T ^ 2). set (u := x - s).
  assert (EM : Mx x T = u + 77.06 + m + s) by (unfold Mx, m, u; lra).
  destruct (turn_sin g s (Mx x T * d) ((u + 77.06 + m) * d) Hg ltac:(rewrite EM; fold d; ring)) as [S1 _].
  assert (S2 : sin (2 * (Mx x T * d)) = sin (2 * ((u + 77.06 + m) * d))).
  { destruct Hg as [[-> ->]|[-> ->]]; [replace (2 * (Mx x T * d)) with (2 * ((u + 77.06 + m) * d) + 2 * INR 2 * PI)|replace (2 * (Mx x T * d)) with (2 * ((u + 77.06 + m) * d) + 2 * INR 3 * PI)];
      try apply sin_period; rewrite EM; unfold d; cbn [INR]; field. }
  assert (EC : Cx x T = fC g u m (1.914602 - 0.004817 * T - 0.000014 * T ^ 2) (0.019993 - 0.000101 * T) (0.000289 * sin (3 * (Mx x T * d))) d).
  { unfold Cx, fC. cbv zeta. fold d. rewrite S1, S2. reflexivity. }
  set (C := fC g u m _ _ _ d) in *.
  destruct (turn_sin g s (lx x T) ((u + C - 0.00569) * d) Hg ltac:(unfold lx; rewrite EC; fold d; unfold u; ring)) as [L _].
  destruct (turn_sin g s (x * d) (u * d) Hg ltac:(unfold u, d; field)) as [_ X].
  destruct (turn_sin g s ((Mx x T + C) * d) ((u + 77.06 + m + C) * d) Hg ltac:(rewrite EM; fold d; ring)) as [_ N].
  split; [|unfold fsd, feot, fecf, fl, sdec, seot, secf; fold C; fold d; rewrite EC, L, X, N; split; [reflexivity|split; [reflexivity|]]].
  - unfold slow. assert (B3 : -1 <= sin (3 * (Mx x T * d)) <= 1) by apply SIN_bound. generalize dependent (sin (3 * (Mx x T * d))). intros z3 _ _ _ _ B3. unfold m, d, ox, ex.
    clear - HT B3. repeat split; interval with (i_bisect T).
  - assert (K : 0.016 <= ex T <= 0.017) by (unfold ex; clear - HT; split; interval with (i_bisect T)). pose proof (COS_bound ((u + 77.06 + m + C) * d)) as B.
    set (z := g * cos ((u + 77.06 + m + C) * d)). assert (B' : -1 <= z <= 1) by (unfold z; destruct Hg as [[-> _]|[-> _]]; lra). unfold Rdiv. field.
    split; [nra|]. nra.
Qed.
Ltac gen8 H := destruct H as (m & c & b & e & d & so & y & k & (Bm & Bc & Bb & Be & Bd & Bso & By & Bk) & E1 & E2 & E3); unfold cdec; rewrite E1, E2, E3; clear E1 E2 E3.
Ltac box u m := unfold fsd, feot, fecf, fl, fC; interval with (i_bisect u, i_bisect m, i_prec 20).
Ltac boxi n := unfold iqbal_dec, iqbal_eot, iqbal_ecf; interval with (i_bisect n, i_prec 20).
Ltac cst := cbn [fst snd dec_range eot_range ecf_range]; unfold se; interval with (i_prec 40).
''')
rad=math.pi/180
for m in range(12):
    n0=sum(lens[:m]); n1=sum(lens[:m+1])+(1 if m>=1 else 0)
    xa=round(0.98564736*n0+279.2,4); xb=round(0.98564736*n1+281.5,4)
    g,s=((1,360) if m<6 else (-1,540))
    sl=math.sin((dec[m][0]+0.04)*rad); sh=math.sin((dec[m][1]-0.04)*rad)
    se=lambda v: math.sin((v/4+0.0057183)*rad)
    a=se(eot[m][0]+0.49); b=se(eot[m][1]-0.49)
    gs='1' if g==1 else '(-1)'
    hg='(or_introl (conj eq_refl eq_refl))' if g==1 else '(or_intror (conj eq_refl eq_refl))'
    w(f'''Lemma al_month{m+1} x T : {xa} <= x <= {xb} -> -3.25 <= T <= 2.65 ->
  sin ((fst (dec_range {m+1}) + 0.04) * (PI / 180)) <= sdec x T <= sin ((snd (dec_range {m+1}) - 0.04) * (PI / 180)) /\\
  0 <= seot x T - cdec x T * se (fst (eot_range {m+1}) + 0.49) /\\ 0 <= cdec x T * se (snd (eot_range {m+1}) - 0.49) - seot x T /\\
  fst (ecf_range {m+1}) + 0.0005 <= secf x T <= snd (ecf_range {m+1}) - 0.0005.
Proof.
  intros Bx BT. gen8 (reduced x T {gs} {s} {hg} BT). assert (Bu : {r(round(xa-s,4))} <= x - {s} <= {r(round(xb-s,4))}) by lra. generalize dependent (x - {s}). intros u Bu. clear Bx BT x T.
  assert (Ka : {q(a,False)} <= se (fst (eot_range {m+1}) + 0.49) <= {q(a,True)}) by (split; cst). assert (Kb : {q(b,False)} <= se (snd (eot_range {m+1}) - 0.49) <= {q(b,True)}) by (split; cst).
  generalize dependent (se (fst (eot_range {m+1}) + 0.49)). intros ka Ka. generalize dependent (se (snd (eot_range {m+1}) - 0.49)). intros kb Kb. cbn [fst snd dec_range ecf_range].
  split; [split; [apply Rle_trans with {q(sl,True)}; [interval|]|apply Rle_trans with {q(sh,False)}; [|interval]]|split; [|split; [|split]]]; box u m.
Qed.
Lemma iq_month{m+1} n : {n0} <= n <= {n1} -> let a := 2 * PI * (n + 1) / 365 in
  (fst (dec_range {m+1}) + 0.001) * (PI / 180) <= iqbal_dec a <= (snd (dec_range {m+1}) - 0.001) * (PI / 180) /\\
  fst (eot_range {m+1}) + 0.001 <= iqbal_eot a <= snd (eot_range {m+1}) - 0.001 /\\ fst (ecf_range {m+1}) + 0.00001 <= iqbal_ecf a <= snd (ecf_range {m+1}) - 0.00001.
Proof.
  intros Bn. cbv zeta. assert (Ba : {q(2*math.pi*(n0+1)/365,False)} <= 2 * PI * (n + 1) / 365 <= {q(2*math.pi*(n1+1)/365,True)}) by (split; interval). generalize dependent (2 * PI * (n + 1) / 365). intros a Ba. clear n Bn.
  cbn [fst snd dec_range eot_range ecf_range].
  split; [split; [apply Rle_trans with {q((dec[m][0]+0.001)*rad,True)}; [interval|]|apply Rle_trans with {q((dec[m][1]-0.001)*rad,False)}; [|interval]]|split; split]; boxi a.
Qed.
''')
def rng(m):
    n0=sum(lens[:m]); n1=sum(lens[:m+1])+(1 if m>=1 else 0)
    return n0,n1,round(0.98564736*n0+279.2,4),round(0.98564736*n1+281.5,4)
w('(** First and last day (since the start of the year) of the months, and the mean longitudes in degrees. *)')
for k,nm in enumerate(('first_day','last_day','first_lon','last_lon')):
    w(f'Definition {nm} (m : Z) : R := match m with '+' | '.join(f'{m+1}%Z => {rng(m)[k]}' for m in range(12))+' | _ => 0 end.')
w('''Lemma al_month m x T : (1 <= m <= 12)%Z -> first_lon m <= x <= last_lon m -> -3.25 <= T <= 2.65 ->
  sin ((fst (dec_range m) + 0.04) * (PI / 180)) <= sdec x T <= sin ((snd (dec_range m) - 0.04) * (PI / 180)) /\\
  0 <= seot x T - cdec x T * se (fst (eot_range m) + 0.49) /\\ 0 <= cdec x T * se (snd (eot_range m) - 0.49) - seot x T /\\
  fst (ecf_range m) + 0.0005 <= secf x T <= snd (ecf_range m) - 0.0005.
Proof.
  intros Hm. assert (m = 1 \\/ m = 2 \\/ m = 3 \\/ m = 4 \\/ m = 5 \\/ m = 6 \\/ m = 7 \\/ m = 8 \\/ m = 9 \\/ m = 10 \\/ m = 11 \\/ m = 12)%Z as H by lia.
'''.replace('\\\\','\\')+'  destruct H as ['+' | ['.join(['->']*11)+' | ->'+']'*11+'.\n'+'\n'.join(f'  - exact (al_month{m+1} x T).' for m in range(12))+'\nQed.')
w('''Lemma iq_month m n : (1 <= m <= 12)%Z -> first_day m <= n <= last_day m -> let a := 2 * PI * (n + 1) / 365 in
  (fst (dec_range m) + 0.001) * (PI / 180) <= iqbal_dec a <= (snd (dec_range m) - 0.001) * (PI / 180) /\\
  fst (eot_range m) + 0.001 <= iqbal_eot a <= snd (eot_range m) - 0.001 /\\ fst (ecf_range m) + 0.00001 <= iqbal_ecf a <= snd (ecf_range m) - 0.00001.
Proof.
  intros Hm. assert (m = 1 \\/ m = 2 \\/ m = 3 \\/ m = 4 \\/ m = 5 \\/ m = 6 \\/ m = 7 \\/ m = 8 \\/ m = 9 \\/ m = 10 \\/ m = 11 \\/ m = 12)%Z as H by lia.
'''.replace('\\\\','\\')+'  destruct H as ['+' | ['.join(['->']*11)+' | ->'+']'*11+'.\n'+'\n'.join(f'  - exact (iq_month{m+1} n).' for m in range(12))+'\nQed.')
open(OUT+'/SeasonR.v','w').write('\n'.join(out))
s='''(** * SeasonSpec: the sun's year, month by month (specification) *)
From Coq Require Import ZArith Reals.
From Verif Require Import CalendarSpec.
Open Scope R_scope.

(** The instant [t] (ns since 1970, UTC) lies in month [m] of year [y]. *)
Definition in_month (day_number : Z -> Z -> Z -> Z) (y m t : Z) : Prop :=
  (1 <= m <= 12)%Z /\\ (86400 * day_number y m 1 <= t / 1000000000 < 86400 * (day_number y m (month_length y m) + 1))%Z.

(** Declination in degrees, equation of time in minutes, eccentricity correction (distance to the sun to the power -2): from - to. *)
'''
for nm,tab in (('dec',dec),('eot',eot),('ecf',ecf)):
    s+=f'Definition {nm}_range (m : Z) : R * R :=\n  match m with\n  '
    s+='\n  '.join('| %d%%Z => (%s, %s)'%(i+1,r(a),r(b)) for i,(a,b) in enumerate(tab))
    s+='\n  | _ => (0, 0)\n  end.\n'
open(OUT+'/SeasonSpec.v','w').write(s)
