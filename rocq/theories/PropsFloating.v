(** * C104: floating arrows meet the borders of their boxes *)
From Coq Require Import QArith Qabs Qround ZArith Lqa Lia Bool.
From Verif Require Import Floating.
Open Scope Q_scope.

(** ** Specification *)
(** Where a box is drawn. *)
Definition left_of (n : box) := from_x n + bx n.
Definition top_of (n : box) := from_y n + by_ n.
Definition inside (n : box) (x y : Q) := left_of n <= x <= left_of n + bw n /\ top_of n <= y <= top_of n + bh n.
Definition on_side (s : side) (n : box) (x y : Q) : Prop :=
  inside n x y /\
  match s with
  | Left => x == left_of n
  | Right => x == left_of n + bw n
  | Top => y == top_of n
  | Bottom => y == top_of n + bh n
  end.
Definition on_border n x y := exists s, on_side s n x y.
(** On the ray that leaves the middle of [n] in direction [(dx, dy)]. *)
Definition on_ray (n : box) (dx dy x y : Q) :=
  exists k, 0 < k /\ x == left_of n + bw n / 2 + k * dx /\ y == top_of n + bh n / 2 + k * dy.
Definition middle_x n := left_of n + bw n / 2.
Definition middle_y n := top_of n + bh n / 2.
(** Less than two pixels from that side. *)
Definition near_side (s : side) (n : box) (x y : Q) : Prop :=
  match s with
  | Left => x < left_of n + 2
  | Right => left_of n + bw n - 2 < x
  | Top => y < top_of n + 2
  | Bottom => top_of n + bh n - 2 < y
  end.
Definition free (n : box) := from_x n == 0 /\ from_y n == 0.
Definition apart (s t : box) := ~ (bx s == bx t /\ by_ s == by_ t).

(** ** Proofs *)
Lemma qabs_cases : forall q, (0 <= q /\ Qabs q == q) \/ (q < 0 /\ Qabs q == - q).
Proof. intros q. destruct (Qlt_le_dec q 0) as [H|H]; [right|left]; (split; [exact H|]); [apply Qabs_neg; apply Qlt_le_weak|apply Qabs_pos]; exact H. Qed.
Lemma sizes : forall n, 0 < bw n -> 0 < bh n -> (Qeq_bool (bw n) 0 || Qeq_bool (bh n) 0) = false.
Proof.
  intros n W H. apply orb_false_iff. split; destruct (Qeq_bool _ 0) eqn:E; try reflexivity; apply Qeq_bool_iff in E; lra.
Qed.
(** The closed form: with [u], [v] the two differences in half sizes. *)
Lemma intersection_ray : forall n t, 0 < bw n -> 0 < bh n -> apart n t ->
  exists x y k, intersection n t = Is (At x y) /\ 0 < k /\
    x == bx n + bw n / 2 + k * (bx t - bx n) /\ y == by_ n + bh n / 2 + k * (by_ t - by_ n) /\
    ((k * Qabs (bx t - bx n) == bw n / 2 /\ k * Qabs (by_ t - by_ n) <= bh n / 2) \/
     (k * Qabs (by_ t - by_ n) == bh n / 2 /\ k * Qabs (bx t - bx n) <= bw n / 2)).
Proof.
  intros n t W H A. unfold intersection. rewrite (sizes n W H).
  set (xx1 := (bx t + bw n / 2 - (bx n + bw n / 2)) / (2 * (bw n / 2)) - (by_ t + bh n / 2 - (by_ n + bh n / 2)) / (2 * (bh n / 2))).
  set (yy1 := (bx t + bw n / 2 - (bx n + bw n / 2)) / (2 * (bw n / 2)) + (by_ t + bh n / 2 - (by_ n + bh n / 2)) / (2 * (bh n / 2))).
  set (dx := bx t - bx n). set (dy := by_ t - by_ n).
  assert (Nw : ~ bw n == 0) by lra. assert (Nh : ~ bh n == 0) by lra.
  set (u := dx / bw n). set (v := dy / bh n).
  assert (Eu : dx == u * bw n) by (unfold u; field; exact Nw). assert (Ev : dy == v * bh n) by (unfold v; field; exact Nh).
  assert (X1 : xx1 == u - v) by (unfold xx1, u, v, dx, dy; field; auto).
  assert (Y1 : yy1 == u + v) by (unfold yy1, u, v, dx, dy; field; auto).
  assert (NZ : ~ (u == 0 /\ v == 0)). { intros (U & V). apply A. rewrite U in Eu. rewrite V in Ev. unfold dx in Eu. unfold dy in Ev. split; lra. }
  assert (D : 0 < Qabs xx1 + Qabs yy1).
  { rewrite X1, Y1. destruct (qabs_cases (u - v)) as [(P & ->)|(P & ->)], (qabs_cases (u + v)) as [(Q & ->)|(Q & ->)]; lra. }
  set (d := Qabs xx1 + Qabs yy1) in *.
  assert (Qeq_bool d 0 = false) as -> by (destruct (Qeq_bool d 0) eqn:E; [apply Qeq_bool_iff in E; lra|reflexivity]).
  assert (Nd : ~ d == 0) by lra. assert (K : 0 < 1 / d) by (apply Qlt_shift_div_l; lra).
  assert (KD : (1 / d) * d == 1) by (field; exact Nd).
  eexists. eexists. exists (1 / d). split; [reflexivity|]. split; [exact K|]. split; [rewrite X1, Y1, Eu; field; exact Nd|]. split; [rewrite X1, Y1, Ev; field; exact Nd|].
  assert (Ad : d == Qabs (u - v) + Qabs (u + v)) by (unfold d; rewrite X1, Y1; reflexivity).
  assert (Ax : Qabs dx == Qabs u * bw n) by (rewrite Eu, Qabs_Qmult; rewrite (Qabs_pos (bw n)) by lra; reflexivity).
  assert (Ay : Qabs dy == Qabs v * bh n) by (rewrite Ev, Qabs_Qmult; rewrite (Qabs_pos (bh n)) by lra; reflexivity).
  rewrite Ax, Ay. revert K KD. generalize (1 / d). intros k K KD.
  assert (M : (d == 2 * Qabs u /\ Qabs v <= Qabs u) \/ (d == 2 * Qabs v /\ Qabs u <= Qabs v)).
  { rewrite Ad. destruct (qabs_cases (u - v)) as [(P & ->)|(P & ->)], (qabs_cases (u + v)) as [(Q & ->)|(Q & ->)], (qabs_cases u) as [(R & ->)|(R & ->)], (qabs_cases v) as [(S & ->)|(S & ->)];
      first [left; split; lra|right; split; lra]. }
  destruct M as [(M & L)|(M & L)]; [left|right].
  - assert (KU : k * Qabs u == 1 # 2) by (rewrite M in KD; lra). assert (KV : k * Qabs v <= 1 # 2) by (rewrite <- KU; apply Qmult_le_l; assumption).
    split; [rewrite Qmult_assoc, KU; field|]. rewrite Qmult_assoc. setoid_replace (bh n / 2) with ((1 # 2) * bh n) by field. apply Qmult_le_compat_r; [exact KV|lra].
  - assert (KV : k * Qabs v == 1 # 2) by (rewrite M in KD; lra). assert (KU : k * Qabs u <= 1 # 2) by (rewrite <- KV; apply Qmult_le_l; assumption).
    split; [rewrite Qmult_assoc, KV; field|]. rewrite Qmult_assoc. setoid_replace (bw n / 2) with ((1 # 2) * bw n) by field. apply Qmult_le_compat_r; [exact KU|lra].
Qed.
Lemma kabs : forall k q, 0 < k -> k * Qabs q == Qabs (k * q).
Proof. intros k q K. rewrite Qabs_Qmult, (Qabs_pos k) by lra. reflexivity. Qed.
(** The end of an arrow at a box is on the border of the box, on the ray from its
    middle parallel to the line between the two boxes' corners. *)
Theorem C104_end : forall n t, 0 < bw n -> 0 < bh n -> free n -> apart n t ->
  exists x y, intersection n t = Is (At x y) /\ on_border n x y /\ on_ray n (bx t - bx n) (by_ t - by_ n) x y.
Proof.
  intros n t W H (Fx & Fy) A. destruct (intersection_ray n t W H A) as (x & y & k & E & K & X & Y & C). exists x, y. split; [exact E|]. split.
  - rewrite !kabs in C by exact K. set (a := k * (bx t - bx n)) in *. set (b := k * (by_ t - by_ n)) in *. clearbody a b.
    assert (Hw : bw n / 2 == bw n * (1 # 2)) by field. assert (Hh : bh n / 2 == bh n * (1 # 2)) by field. rewrite Hw, Hh in *.
    unfold on_border, on_side, inside, left_of, top_of. destruct C as [(C & D)|(C & D)].
    + destruct (qabs_cases a) as [(P & Ea)|(P & Ea)], (qabs_cases b) as [(Q & Eb)|(Q & Eb)]; rewrite Ea in C; rewrite Eb in D; first [exists Right; split; [repeat split; lra|lra]|exists Left; split; [repeat split; lra|lra]].
    + destruct (qabs_cases a) as [(P & Ea)|(P & Ea)], (qabs_cases b) as [(Q & Eb)|(Q & Eb)]; rewrite Ea in D; rewrite Eb in C; first [exists Bottom; split; [repeat split; lra|lra]|exists Top; split; [repeat split; lra|lra]].
  - exists k. unfold left_of, top_of. split; [exact K|]. split; lra.
Qed.
Lemma floor_bounds : forall q, js_round q <= q + (1 # 2) /\ q - (1 # 2) < js_round q.
Proof.
  intros q. unfold js_round. split; [apply Qfloor_le|]. pose proof (Qlt_floor (q + (1 # 2))) as H. rewrite inject_Z_plus in H. change (inject_Z 1) with 1 in H. lra.
Qed.
Lemma round_eq : forall p q, p == q -> js_round p == js_round q.
Proof. intros p q E. unfold js_round. rewrite E. reflexivity. Qed.
Ltac rounds := repeat match goal with |- context [js_round ?q] => let H := fresh "B" in pose proof (floor_bounds q) as H; let r := fresh "r" in set (r := js_round q) in *; clearbody r end.
Ltac sides E :=
  repeat (let b := fresh "b" in destruct (Qle_bool _ _) eqn:b in E; [apply Qle_bool_iff in b|apply not_true_iff_false in b; rewrite Qle_bool_iff in b; apply Qnot_le_lt in b]).
Lemma side_near : forall n x y, 2 < bw n -> 2 < bh n -> free n -> on_border n x y -> exists s, edge_side n (At x y) = Is s /\ near_side s n x y /\
  (forall s', on_side s' n x y -> s' = s \/ near_side Left n x y \/ near_side Right n x y).
Proof.
  intros n x y W H (Fx & Fy) (s0 & (Ix & Iy) & S0). unfold edge_side. rewrite (sizes n) by lra.
  pose proof (floor_bounds x) as Bx. pose proof (floor_bounds y) as By. pose proof (floor_bounds (bx n)) as Bn. pose proof (floor_bounds (by_ n)) as Bm.
  assert (Ly : y == top_of n -> js_round y == js_round (by_ n)) by (intros E; apply round_eq; unfold top_of in E; lra).
  assert (Lx : x == left_of n -> js_round x == js_round (bx n)) by (intros E; apply round_eq; unfold left_of in E; lra).
  set (px := js_round x) in *. set (py := js_round y) in *. set (nx := js_round (bx n)) in *. set (ny := js_round (by_ n)) in *. clearbody px py nx ny.
  unfold near_side, on_side, inside, left_of, top_of in *.
  eexists. split; [reflexivity|].
  destruct (Qle_bool px (nx + 1)) eqn:A; [apply Qle_bool_iff in A; split; [lra|intros s' _; right; left; lra]|apply not_true_iff_false in A; rewrite Qle_bool_iff in A; apply Qnot_le_lt in A].
  destruct (Qle_bool (nx + bw n - 1) px) eqn:B; [apply Qle_bool_iff in B; split; [lra|intros s' _; right; right; lra]|apply not_true_iff_false in B; rewrite Qle_bool_iff in B; apply Qnot_le_lt in B].
  assert (NL : ~ x == from_x n + bx n) by (intros E; specialize (Lx E); lra).
  assert (NR : ~ x == from_x n + bx n + bw n) by (intros E; lra).
  destruct (Qle_bool py (ny + 1)) eqn:C; [apply Qle_bool_iff in C|apply not_true_iff_false in C; rewrite Qle_bool_iff in C; apply Qnot_le_lt in C].
  - split; [lra|]. intros s' (_ & S'). destruct s'; [tauto|tauto|auto|lra].
  - assert (NT : ~ y == from_y n + by_ n) by (intros E; specialize (Ly E); lra).
    assert (Yb : y == from_y n + by_ n + bh n) by (destruct s0; tauto).
    destruct (Qle_bool (by_ n + bh n - 1) py) eqn:D; [apply Qle_bool_iff in D|apply not_true_iff_false in D; rewrite Qle_bool_iff in D; apply Qnot_le_lt in D; lra].
    split; [lra|]. intros s' (_ & S'). destruct s'; [tauto|tauto|tauto|auto].
Qed.
Lemma side_upright : forall n x y, 2 < bw n -> 2 < bh n -> free n -> (on_side Left n x y -> edge_side n (At x y) = Is Left) /\ (on_side Right n x y -> edge_side n (At x y) = Is Right).
Proof.
  intros n x y W H (Fx & Fy). unfold edge_side. rewrite (sizes n) by lra.
  pose proof (floor_bounds x) as Bx. pose proof (floor_bounds (bx n)) as Bn.
  assert (Lx : x == left_of n -> js_round x == js_round (bx n)) by (intros E; apply round_eq; unfold left_of in E; lra).
  set (px := js_round x) in *. set (nx := js_round (bx n)) in *. clearbody px nx. unfold on_side, inside, left_of, top_of in *.
  split; intros (I & S).
  - assert (Qle_bool px (nx + 1) = true) as -> by (apply Qle_bool_iff; specialize (Lx S); lra). reflexivity.
  - destruct (Qle_bool px (nx + 1)) eqn:A; [apply Qle_bool_iff in A; lra|]. assert (Qle_bool (nx + bw n - 1) px = true) as -> by (apply Qle_bool_iff; lra). reflexivity.
Qed.
(** ** Theorems *)
(** An arrow between two boxes starts and ends on their borders, and each end leaves
    its box at the side it is on; within two pixels of a corner it may be said to
    leave at the left or right side instead of the top or bottom. *)
Theorem C104_arrow : forall s t, 2 < bw s -> 2 < bh s -> 2 < bw t -> 2 < bh t -> free s -> free t -> apart s t ->
  exists x y x' y' a b, edge_params s t = Is (mkArrow (At x y) (At x' y') a b) /\
    on_border s x y /\ on_ray s (bx t - bx s) (by_ t - by_ s) x y /\ on_border t x' y' /\ on_ray t (bx s - bx t) (by_ s - by_ t) x' y' /\
    near_side a s x y /\ near_side b t x' y' /\
    (forall c, on_side c s x y -> c = a \/ ((a = Left \/ a = Right) /\ (c = Top \/ c = Bottom))) /\
    (forall c, on_side c t x' y' -> c = b \/ ((b = Left \/ b = Right) /\ (c = Top \/ c = Bottom))).
Proof.
  intros s t Ws Hs Wt Ht Fs Ft A. assert (A' : apart t s) by (intros (X & Y); apply A; split; symmetry; assumption).
  destruct (C104_end s t) as (x & y & E & B & R); try assumption; try lra. destruct (C104_end t s) as (x' & y' & E' & B' & R'); try assumption; try lra.
  destruct (side_near s x y) as (a & Sa & Na & _); try assumption. destruct (side_near t x' y') as (b & Sb & Nb & _); try assumption.
  exists x, y, x', y', a, b. unfold edge_params. rewrite E, E', Sa, Sb. split; [reflexivity|]. do 6 (split; [assumption|]).
  assert (G : forall n u v c d, 2 < bw n -> 2 < bh n -> free n -> edge_side n (At u v) = Is d -> near_side d n u v -> on_side c n u v -> c = d \/ ((d = Left \/ d = Right) /\ (c = Top \/ c = Bottom))).
  { clear. intros n u v c d W H F E N S. destruct (side_upright n u v W H F) as (L & R).
    destruct c; [rewrite (L S) in E; injection E as <-; auto|rewrite (R S) in E; injection E as <-; auto| |]; destruct d; try (right; split; auto; fail); auto; exfalso;
      destruct S as (_ & S); unfold near_side in N; cbn in S; clear L R; lra. }
  split; intros c Sc; [apply (G s x y)|apply (G t x' y')]; assumption.
Qed.
(** The arrow does not depend on which way it points, ... *)
Theorem C104_reversed : forall s t, edge_params t s =
  match edge_params s t with Throws => Throws | Is r => Is (mkArrow (finish r) (start r) (finish_side r) (start_side r)) end.
Proof.
  intros s t. assert (G : forall n m p, intersection n m = Is p -> exists d, forall q, edge_side n q = Is (d q)).
  { clear. intros n m p H. unfold intersection in H. unfold edge_side. destruct (Qeq_bool (bw n) 0 || Qeq_bool (bh n) 0); [discriminate H|]. eexists (fun q => match q with NaN => _ | At _ _ => _ end). intros [|x y]; reflexivity. }
  unfold edge_params. destruct (intersection s t) as [|p] eqn:E; destruct (intersection t s) as [|q] eqn:E'; try reflexivity.
  destruct (G _ _ _ E) as (d & D). destruct (G _ _ _ E') as (d' & D'). rewrite D, D'. reflexivity.
Qed.
(** ... and it moves with the boxes. *)
Definition moved (n : box) (dx dy : Q) := mkBox (bx n + dx) (by_ n + dy) (bw n) (bh n) (from_x n) (from_y n).
Theorem C104_moved : forall s t dx dy, 0 < bw s -> 0 < bh s -> apart s t -> exists x y x' y',
  intersection s t = Is (At x y) /\ intersection (moved s dx dy) (moved t dx dy) = Is (At x' y') /\ x' == x + dx /\ y' == y + dy.
Proof.
  intros s t dx dy W H A. unfold intersection. cbn [moved bx by_ bw bh]. rewrite (sizes s W H).
  set (d := Qabs _ + Qabs _). set (d' := Qabs ((bx t + dx + bw s / 2 - _) / _ - _) + Qabs _).
  assert (Ns : ~ bw s == 0 /\ ~ bh s == 0) by (split; lra). destruct Ns as (Nw & Nh).
  assert (E : d' == d).
  { unfold d, d'. apply Qplus_comp; apply Qabs_wd; field; auto. }
  assert (Nd : Qeq_bool d 0 = false).
  { destruct (intersection_ray s t W H A) as (x & y & k & Q & _). unfold intersection in Q. rewrite (sizes s W H) in Q. fold d in Q. destruct (Qeq_bool d 0); [discriminate Q|reflexivity]. }
  assert (Nd' : Qeq_bool d' 0 = false). { destruct (Qeq_bool d' 0) eqn:X; [|reflexivity]. apply Qeq_bool_iff in X. rewrite E in X. apply Qeq_bool_iff in X. congruence. }
  rewrite Nd, Nd'. assert (Z : ~ d == 0) by (intros X; apply Qeq_bool_iff in X; congruence).
  do 4 eexists. split; [reflexivity|]. split; [reflexivity|]. rewrite E. split; field; auto.
Qed.
(** It is what the comment promises, the line between the middles, for boxes of one size; *)
Theorem C104_same_size : forall n t, 0 < bw n -> 0 < bh n -> free n -> free t -> apart n t -> bw n == bw t -> bh n == bh t ->
  exists x y, intersection n t = Is (At x y) /\ on_border n x y /\ on_ray n (middle_x t - middle_x n) (middle_y t - middle_y n) x y.
Proof.
  intros n t W H F (Gx & Gy) A Ew Eh. destruct (C104_end n t W H F A) as (x & y & E & B & k & K & X & Y). exists x, y. split; [exact E|]. split; [exact B|].
  destruct F as (Fx & Fy). exists k. split; [exact K|]. unfold middle_x, middle_y, left_of, top_of in *.
  assert (D1 : from_x t + bx t + bw t / 2 - (from_x n + bx n + bw n / 2) == bx t - bx n) by (rewrite Ew; lra).
  assert (D2 : from_y t + by_ t + bh t / 2 - (from_y n + by_ n + bh n / 2) == by_ t - by_ n) by (rewrite Eh; lra).
  rewrite D1, D2. auto.
Qed.
(** but not for boxes of different sizes: here the box [t] is straight above [n]. *)
Theorem C104_middle_refuted : exists n t x y, 2 < bw n /\ 2 < bh n /\ 2 < bw t /\ 2 < bh t /\ free n /\ free t /\ apart n t /\
  intersection n t = Is (At x y) /\ ~ on_ray n (middle_x t - middle_x n) (middle_y t - middle_y n) x y.
Proof.
  exists (mkBox 0 0 20 20 0 0), (mkBox (-40) (-100) 100 20 0 0). eexists. eexists.
  split; [reflexivity|]. split; [reflexivity|]. split; [reflexivity|]. split; [reflexivity|]. split; [split; reflexivity|]. split; [split; reflexivity|].
  split; [intros (E & _); discriminate E|]. split; [reflexivity|].
  intros (k & K & X & _). set (d := middle_x _ - middle_x _) in X. assert (Z : d == 0) by reflexivity. rewrite Z, Qmult_0_r, Qplus_0_r in X.
  revert X. vm_compute. discriminate.
Qed.
(** For a box drawn inside another the arrow misses it: its place there is not read. *)
Theorem C104_inner_refuted : exists n t x y, 2 < bw n /\ 2 < bh n /\ free t /\ apart n t /\ intersection n t = Is (At x y) /\ ~ inside n x y.
Proof.
  exists (mkBox 20 50 70 63 (-371) 24), (mkBox (-760) (-100) 1200 60 0 0). eexists. eexists.
  split; [reflexivity|]. split; [reflexivity|]. split; [split; reflexivity|]. split; [intros (E & _); discriminate E|]. split; [reflexivity|].
  intros ((_ & X) & _). revert X. vm_compute. intros X. apply X. reflexivity.
Qed.
(** Two boxes in the same place have no arrow, a box without size makes it throw. *)
Theorem C104_same_place : forall s t, 0 < bw s -> 0 < bh s -> 0 < bw t -> 0 < bh t -> ~ apart s t -> edge_params s t = Is (mkArrow NaN NaN Top Top).
Proof.
  intros s t Ws Hs Wt Ht A.
  assert (P : bx s == bx t /\ by_ s == by_ t). { unfold apart in A. destruct (Qeq_dec (bx s) (bx t)), (Qeq_dec (by_ s) (by_ t)); tauto. }
  assert (G : forall n t, 0 < bw n -> 0 < bh n -> bx n == bx t -> by_ n == by_ t -> intersection n t = Is NaN).
  { clear. intros n t W H X Y. unfold intersection. rewrite (sizes n W H). assert (Nw : ~ bw n == 0) by lra. assert (Nh : ~ bh n == 0) by lra.
    set (d := Qabs _ + Qabs _). assert (Z : d == 0).
    { unfold d. assert (Z1 : (bx t + bw n / 2 - (bx n + bw n / 2)) / (2 * (bw n / 2)) == 0) by (rewrite X; field; exact Nw).
      assert (Z2 : (by_ t + bh n / 2 - (by_ n + bh n / 2)) / (2 * (bh n / 2)) == 0) by (rewrite Y; field; exact Nh).
      rewrite Z1, Z2. reflexivity. }
    apply Qeq_bool_iff in Z. rewrite Z. reflexivity. }
  destruct P as (X & Y). unfold edge_params. rewrite (G s t), (G t s) by (try assumption; symmetry; assumption). unfold edge_side. rewrite !sizes by assumption. reflexivity.
Qed.
Theorem C104_no_size : forall s t, bw s == 0 \/ bh s == 0 \/ bw t == 0 \/ bh t == 0 -> edge_params s t = Throws.
Proof.
  assert (G : forall n m, bw n == 0 \/ bh n == 0 -> intersection n m = Throws).
  { intros n m Z. unfold intersection. assert ((Qeq_bool (bw n) 0 || Qeq_bool (bh n) 0) = true) as ->; [|reflexivity].
    destruct Z as [Z|Z]; apply Qeq_bool_iff in Z; rewrite Z; [reflexivity|apply orb_true_r]. }
  intros s t Z. unfold edge_params. destruct Z as [Z|[Z|[Z|Z]]]; [rewrite (G s t) by auto; reflexivity|rewrite (G s t) by auto; reflexivity| |];
    rewrite (G t s) by auto; destruct (intersection s t); reflexivity.
Qed.
(** The accumulator and the data bus of the diagram. *)
Example C104_nonvacuous : exists x y x' y' b, edge_params (mkBox (-537) (-227) 70 63 0 0) (mkBox (-760) (-100) 1200 60 0 0) = Is (mkArrow (At x y) (At x' y') Left b) /\
  x == -537 /\ y == - (78303 # 446).
Proof. do 5 eexists. split; [reflexivity|]. split; vm_compute; reflexivity. Qed.
Print Assumptions C104_end.
Print Assumptions C104_arrow.
Print Assumptions C104_reversed.
Print Assumptions C104_moved.
Print Assumptions C104_same_size.
Print Assumptions C104_middle_refuted.
Print Assumptions C104_inner_refuted.
Print Assumptions C104_same_place.
Print Assumptions C104_no_size.
