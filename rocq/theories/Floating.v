(** * Model of the floating arrows
    mpp-front/src/lib/ReactFlow/utils.ts:1-77, as used by FloatingEdge.tsx and
    FloatingConnectionLine.tsx.  Numbers are exact rationals: the rounding of
    JavaScript's doubles is left out, their NaN is kept. *)
From Coq Require Import QArith Qabs Qround ZArith.
Open Scope Q_scope.

(** The fields of [Node] that are read: [position] (utils.ts:9-11), relative to the
    parent node if there is one (React Flow, [parentNode]), [width] and [height];
    [from_x] and [from_y] is where the parent is, which the code does not read. *)
Record box := mkBox { bx : Q; by_ : Q; bw : Q; bh : Q; from_x : Q; from_y : Q }.
Inductive outcome (A : Type) := Throws | Is (a : A).
Arguments Throws {A}. Arguments Is {A} a.
(** A point, or NaN for both coordinates. *)
Inductive point := NaN | At (x y : Q).

(** [getNodeIntersection], utils.ts:5-34: [!intersectionNodeWidth] is true of 0; [a] is
    Infinity when both differences are 0, and Infinity times 0 is NaN. *)
Definition intersection (n t : box) : outcome point :=
  if Qeq_bool (bw n) 0 || Qeq_bool (bh n) 0 then Throws else
  let w := bw n / 2 in
  let h := bh n / 2 in
  let x2 := bx n + w in
  let y2 := by_ n + h in
  let x1 := bx t + w in
  let y1 := by_ t + h in
  let xx1 := (x1 - x2) / (2 * w) - (y1 - y2) / (2 * h) in
  let yy1 := (x1 - x2) / (2 * w) + (y1 - y2) / (2 * h) in
  let d := Qabs xx1 + Qabs yy1 in
  if Qeq_bool d 0 then Is NaN else
  let a := 1 / d in
  let xx3 := a * xx1 in
  let yy3 := a * yy1 in
  Is (At (w * (xx3 + yy3) + x2) (h * (- xx3 + yy3) + y2)).

(** [Math.round]: halves go up. *)
Definition js_round (q : Q) : Q := inject_Z (Qfloor (q + (1 # 2))).
Inductive side := Left | Right | Top | Bottom.
(** [getEdgePosition], utils.ts:37-59.  No comparison with NaN is true. *)
Definition edge_side (n : box) (p : point) : outcome side :=
  if Qeq_bool (bw n) 0 || Qeq_bool (bh n) 0 then Throws else
  let nx := js_round (bx n) in
  let ny := js_round (by_ n) in
  match p with
  | NaN => Is Top
  | At x y =>
      let px := js_round x in
      let py := js_round y in
      Is (if Qle_bool px (nx + 1) then Left
          else if Qle_bool (nx + bw n - 1) px then Right
          else if Qle_bool py (ny + 1) then Top
          else if Qle_bool (by_ n + bh n - 1) py then Bottom
          else Top)
  end.

(** [getEdgeParams], utils.ts:62-77. *)
Record arrow := mkArrow { start : point; finish : point; start_side : side; finish_side : side }.
Definition edge_params (s t : box) : outcome arrow :=
  match intersection s t with Throws => Throws | Is p =>
  match intersection t s with Throws => Throws | Is q =>
  match edge_side s p with Throws => Throws | Is a =>
  match edge_side t q with Throws => Throws | Is b => Is (mkArrow p q a b) end end end end.
