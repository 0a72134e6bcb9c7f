# Design: a Rocq model of jesperdj/vecmath-rs

## 1. What is modelled

The crate is generic over `S: Scalar` (`src/scalar.rs:20`, i.e. num-traits `Float + NumAssign`).
The model keeps that structure.

* `Scalar.v` - a class `ScalarOps S` holding *operations only* (no laws): the part of
  num-traits `Float` the crate calls.  Generic scalar functions of `src/scalar.rs`.
* `Types.v`, `Point2.v`, `Vector2.v`, `Point3.v`, `Vector3.v`, `Ray.v`, `BoundingBox2.v`, `BoundingBox3.v`,
  `Transform2.v`, `Transform3.v` - one Gallina definition per Rust function, generic over `ScalarOps`,
  each with a comment citing file and lines.
* Two instances of `ScalarOps`:
  * **IEEE level** (`Float.v`): `F fmt` = Flocq `binary_float`, `fmt` = `F32 | F64`; +, -, *, /, sqrt round to
    nearest even, comparisons are IEEE comparisons, floor/ceil/round/trunc are Flocq's `Bnearbyint`.
    `sin_cos` and the sign of `min/max(+0,-0)` are not fixed by Rust, so they are fields of a record
    `platform` over which every theorem quantifies.
  * **exact level** (`XReal.v`): `xreal` = real numbers plus +inf, -inf, NaN, with IEEE conventions for the
    special values and exact arithmetic on reals.  Theorems at this level state what the generic code computes
    when rounding is set aside (algebraic laws that are simply false of rounded arithmetic).
* Panics and profiles: `linear_index`, `get`, `set`, `corner`, `Matrix4x4::inverse` take a `profile`
  (debug assertions on/off, overflow checks on/off) and return `Ret x | Panic`.

## 2. How each property is stated and proved

| property | level | model functions | method |
|---|---|---|---|
| C01 | IEEE | s_min, s_max | case analysis on NaN, order facts of Flocq comparisons |
| C02, C03, C04, C05, C06 | IEEE + exact | p2_min.., bb*_new, is_inside, union | proved once from order laws (`OrdLaws`), laws proved for both instances |
| C07 | IEEE + exact | bb*_union with empty | order laws: union(empty,b) == new(b.min,b.max) for every NaN-free b; empty U empty = infinite (finding) |
| C08 | IEEE | fold of bb*_union_point | induction over the list |
| C09, C10 | IEEE + exact | overlaps, intersect | order laws |
| C11 | IEEE + exact | intersect with empty | exact iff; Some only for boxes infinite in every dimension (finding) |
| C12 | all scalars | corner | case analysis on bits of a u32 |
| C13 | IEEE, exact | center | monotone rounding (Flocq), real algebra |
| C14 | IEEE | extents | unfolding + order laws + monotone rounding |
| C15 | exact, IEEE | area, volume, surface_area | nra, sign analysis |
| C16 | exact | ray intersect | slab lemma per axis |
| C17 | exact | ray intersect | exact characterisation with `slab_seen` (SpecBox.v); rays in a face plane are always missed (finding) |
| C18 | IEEE | ray intersect | NaN-ignoring min/max |
| C19 | IEEE + exact | ray intersect | every finite-origin ray hits both empty() and infinite() with 0..inf (finding) |
| C20-C23 | exact, IEEE | dot, cross, length, normalize | ring/nra; commutativity of Flocq ops |
| C24 | IEEE | normalize | error analysis with range hypothesis on the squared length; witnesses outside the range (finding) |
| C25-C28 | IEEE, exact | comparisons | monotonicity of rounded sqrt |
| C29, C30 | exact / any | arithmetic | ring; reflexivity per field |
| C31, C34 | any scalar | index, set | induction over the write history |
| C32 | IEEE | min/max_dimension | order laws |
| C33 | IEEE | floor... | Flocq Bnearbyint_correct; exactness of fract |
| C35 | any | get/set | debug: panic theorem; release: exact index formula with u32 wrap, aliasing witness (finding) |
| C36 | any / IEEE | transpose, mul | commutativity of rounded multiplication |
| C37, C38 | exact | mul, inverse | independent spec: n x n matrices as functions, sums, Laplace determinant |
| C39 | IEEE | inverse | exactness on bounded integers; backward error of the determinant test; three witnesses (finding) |
| C40 | IEEE | translate, scale | exactness of x*1, x*0, x+0, x/1 |
| C41, C42 | exact | rotate* | trigonometric identities |
| C43, C44 | exact | Transform | induction over construction expressions / lists |
| C45, C50 | any | inverse, try_from | computation |
| C46, C51, C52 | exact (IEEE for at 0) | rays, products | field |
| C47 | exact + IEEE | bb transform | exact characterisation of when containment holds, refutation |
| C48 | exact | look_at | orthonormal frame algebra |
| C49 | exact + IEEE | look_at | always Ok; NaN propagation (finding) |
| C53 | IEEE | derived == | order laws |
| C54-C56, C59 | IEEE | dot, length, cross, products | standard model of rounding (Flocq relative error lemmas) |
| C60-C63 | any arithmetic | histories of unions with points and boxes (lists), intersect, corner | BoxHist.v: induction over the history, lattice laws from extensionality of ordered boxes; C60 records that NaN coordinates make the result order dependent |
| C64, C65 | any arithmetic | Api.v: traits as classes, free functions closest, farthest, shortest, longest, min, max, distance, length | Search.v: induction over the candidate list; C64 records that a NaN candidate makes the fold forget earlier ones |
| C66-C68 | exact | transform_ray, transform_bb composed with ray intersection and the box operations | ExactTransRay.v: reduction to one-dimensional slabs under x -> s*x+c; SpecAxis.v says what axis-preserving means |
| C03, C05, C08-C10, C61 (through is_inside) | any arithmetic | as above | BoxApi.v: the set-level theorems restated with is_inside as the only observer |
| C69, C70 | any arithmetic | ray.at, length, distance, relative comparisons, corner | FloatMono.v: every rounded operation is monotone in the extended reals |
| C71 | any arithmetic | transform_bb (the loop over the corners) | FloatBoxTrans.v: the loop computes min/max of o and o+d per axis; error analysis as in C56; refutation for the identity by evaluation |
| C72 | any arithmetic | ray intersect | FloatRayErr.v: each axis gives a pair of computed parameters that bracket the exact ones up to slack (also on overflow of the quotient), or a zero-direction case; max/min are exact, so the slack does not accumulate; refutations by evaluation |
| C73 | IEEE | sums, dot, cross, comparisons, at, matrix products, box measures, length | FloatGrid.v: an invariant `GS x r b e` (x is finite, is r, r = n 2^e, abs n <= b) closed under +, -, * while b stays below 2^prec, so every rounding is the identity; the bounds are added up along the expression by tactic |
| C74 | any arithmetic | all vector/point/box/ray operations | FloatSign.v: relations "minus" and "same" on extended reals, closed under every scalar operation (division by a signed zero by cases); a tactic walks the expression |
| C75 | IEEE (mirror), any (permute) | ray intersect | FloatSym.v: the result depends only on the sets of near and far parameters (early exits change nothing); max/min with a non-NaN start are order independent; (-x)/(-y) = x/y also for zeros |
| C76 | IEEE | arithmetic, dot, cross, length, normalize, comparisons, rays, boxes, matrix products | FloatScale.v: a relation `SC x y k e B` (y = 2^k x, x a multiple of 2^e, at most 2^B) closed under every operation: a multiple of 2^e with e >= emin rounds as if there were no underflow, so rounding commutes with the scaling |
| C77 | IEEE + EXACT | dot, length, distance, normalize, + | FloatTri.v: the error bounds C54, C55, C24 combined with Cauchy-Schwarz and the triangle inequality over the reals; refutations of the exact laws by evaluation |
| C78 | IEEE + EXACT | Transform2/3 rotations applied to vectors and points | FloatRot.v: matrix entries within h of an exactly orthogonal matrix (running error bounds `Nr` for products and sums small enough not to overflow), then C56 for the product; round trip and length by orthogonality. The accuracy of sin_cos is a hypothesis (`SinCosWithin`), since Rust leaves it to the platform |
| C79 | IEEE + EXACT | Matrix3x3/4x4 inverse (closed forms of Adj4.v) | FloatInvAcc.v: running error bounds of each cofactor and of the determinant (as in C39), then the error of a quotient of two approximations; a finite non-zero entry of the result shows that the determinant did not overflow. Exact inverse from ExactMat.v |
| C80 | IEEE + EXACT | t3_look_at, m4_inverse_look_at, m4_inverse, m4_mul_point, m4_mul_vector | LookFrame.v: each normalize and cross product gives a frame with stated defects; LookReal.v: real facts about nearly orthonormal frames (determinant, Gram, isometry); LookCam.v: FloatBig.v rules out overflow of each cofactor, C79's bounds give the accuracy of the forward matrix; FloatLook.v puts them together |
| C81 | IEEE + EXACT | t2_and_then, t3_and_then, t2_inverse, t3_inverse, transform_point, transform_vector, all affine constructors | ChainReal.v: products of lists of real matrices, one step of the error recurrence; FloatChain.v: induction on the list with C56's bound for one product, induction on Affine_built for the bottom row |
| C82 | IEEE + EXACT | inverse, transform_point, transform_vector, translate, scale, and_then, try_from (2D, 3D) | FloatUndo.v: C81's bound for the two-step chain, real algebra of G F - I, C40 for translate and scale, C79 for try_from |
| C83 | IEEE + EXACT | transform_ray, transform_point, at (2D, 3D) | FloatRayTrans.v: the error recurrence of ChainReal.v with C56 and C59 as the two steps, in both orders |
| C84 | IEEE + EXACT | constructors, and_then, inverse, == (2D, 3D) | SpecAlg.v, FloatAlg.v: evaluation in extended reals (sums with zero products are exact); the Nr error calculus of C78 for the sums of angles |
| C85 | IEEE + EXACT | extent, area, surface_area, volume, center (2D, 3D) | FloatMeas.v: the Apx error calculus of C54, with extents accurate relative to the difference |
| C86 | IEEE + EXACT | intersect, at (2D, 3D) | FloatHit.v: the start (end) of the range is one of the quotients (C72's invariants); error of the quotient and of at |
| C87 | IEEE + EXACT | dot, length, normalize, sub, distance (2D, 3D) | FloatAxis.v: in radix 2 the rounded root of the rounded square is exact (midpoint argument), monotonicity of sums and roots |
| C88 | IEEE + EXACT | look_at, inverse_look_at, inverse, try_from, transform of points and vectors (2D, 3D) | FloatPerm.v: the model's inverse run on symbolic scalars (zero, signed atom), related to the scalars by a simulation; C87 for normalize |
| C89 | IEEE + EXACT | vectors, points, rays, boxes, matrices (2D, 3D) | FloatRange.v: powers of two are representable, so rounding cannot pass them; C24 and C55 for the safe range |
| C90 | IEEE + EXACT | vectors, points, transforms, matrices, ray-box test (2D, 3D) | FloatNan.v: NaN is absorbing for + - * / sqrt, ignored by min and max; a search through the terms of the determinant |
| C91 | IEEE + EXACT | look_at, inverse, transform of points and vectors (3D) | FloatCam.v: C89's safe range gives finite squared lengths; perturbation of the cross product of unit vectors bounds the computed sine, so C80 applies; magnitudes of the matrix entries exclude overflow |
| C92 | IEEE + EXACT | intersect (box-box), intersect (box-ray), 2D and 3D | FloatClip.v: per axis the quotient (face - origin) / direction is a monotone function of the face, so it commutes with max and min; separated faces give at most one common quotient |
| C93 | IEEE + EXACT | union, intersect (box-ray), 2D and 3D; the trees and searches are client code in the specification | FloatBvh.v: induction on the tree; bounds include all leaves (C05), the ray test is monotone under inclusion (C58) |
| C94 | EXACT | all constructors except uneven scale and try_from; transform_point/vector, distance, length, dot, cross, relative distance and length | ExactSim.v: induction on the construction; base cases from C41, C42, C48; inverse from the mutual-inverse invariant of C43 |
| C95 | EXACT | intersect (box-ray), ray at and new, vector mul and neg | ExactRayLine.v: what is reported (C17) is invariant under reparametrisation, and convex |
| C96 | IEEE + EXACT | intersect (box-ray), 2D and 3D | FloatPar.v: quotients by a zero have the sign of the numerator times the sign of the zero; case analysis of the slab test in the extended reals |
| C97 | IEEE + EXACT | point difference, point + vector, distance, ray at, 2D and 3D | FloatDiff.v: Sterbenz' lemma (Flocq) and absence of overflow; signs of differences from gradual underflow; error terms of ErrBase |
| C98 | IEEE + EXACT | is_shorter_than, is_longer_than, shortest, longest, is_closer_to, is_farther_from, closest, farthest, 2D and 3D | FloatCmp.v: two-sided bounds of the computed squares from C54 and of the differences, separated by the margin; an overflowing square compares as infinity |
| C99 | IEEE + EXACT | cross, dot in 3D | FloatCross.v: component errors (C59) bounded by Cauchy-Schwarz, exact perpendicularity of the real cross product |
| C100 | ANY scalar type with ring laws | vector, cross, matrix, transform algebra, look_at, generic in the scalar type | GenRing.v: ring identities in an abstract commutative ring; determinant multiplicative so an inverse exists iff the determinant is a unit; induction over construction histories; instance: dual numbers |
| C101 | IEEE + EXACT | length, normalize, dot of scaled and normalised vectors | FloatDir.v: Minkowski for the rounding errors of v*s, the subnormal threshold against the length, composition of C24, C54, C55 |
| C102 | IEEE + EXACT | box cut by a plane; kd-trees as an inductive client of the model | FloatKd.v: the slab quotient is a monotone function of the face coordinate (C92), so the interval of a slab splits at the quotient of the cut; induction over the tree |
| C103 | IEEE + EXACT | clamp written with min/max of points | FloatNear.v: the clamped coordinate lies between the coordinate and every coordinate of the box, and computed differences are monotone (C70) |
| C104 | IEEE + EXACT | point trees as an inductive client of the model | FloatNear.v: induction over the tree with the invariant that the result is at most as far as every point seen; pruning is sound by C103 |
| C105 | IEEE + EXACT | corner, dot, From<Point> | FloatHull.v: every product, and then every sum, is monotone in the computed values |
| C106 | IEEE + EXACT | corner, union with a point, transform of a point | FloatHull.v: each computed coordinate of the image is extreme at a corner (C105), division by w = 1 is exact, then tightness of the accumulated box (C08) |
| C107 | IEEE + EXACT | sub-boxes and recursive descent written with corner, center, new | FloatOct.v: faces of a sub-box coordinate by coordinate, slab ranges split at m (C102), induction over the depth with the center inside (C13) |
| C108 | IEEE + EXACT | distance, corner, clamp, new | FloatBall.v: a farthest point of a box is a corner (C70), a nearest one is the clamp (C103); error terms of one subtraction and one addition |
| C109 | IEEE + EXACT | point trees of C104 | FloatBall.v: induction over the tree with the two bounds of C108 |
| C110 | IEEE + EXACT | floor, ceil, round, trunc, new, union | FloatSnap.v: rounding to integers is exact and monotone; per-axis values of the snapped faces |
| C111 | IEEE + EXACT | at, new, union, overlaps, intersect_ray | FloatSweep.v: rounding is monotone in the origin and in the time; exact part by C16 on the grown box |
| C112 | IEEE + EXACT | dot, corner, is_inside, union | FloatCull.v: the dot product is monotone in each coordinate, so the picked corner is extreme (C105) |
| C113 | IEEE + EXACT | overlaps, axis access of min and max | FloatPrune.v: overlaps implies the order of the faces along every axis; induction over the list, permutations |
| C114 | IEEE + EXACT | Div, floor, new, is_inside, overlaps | FloatHash.v: rounded division by h > 0 and floor are monotone; a rounded quotient passes an integer m only if the quotient is within half a unit, no float lies between H(1-u) and H, and quotients are never halfway between floats (FloatKey.v) |
| C115 | IEEE + EXACT | union, overlaps, is_inside | FloatRtree.v: invariant over the history (the bounds of every node are ordered, contain its leaves, and are the smallest such box); the leaves are a permutation of the expected contents |
| C116 | EXACT | matrix times point, corner, union, overlaps | ExactProj.v: image = rows / weight; (row - bound * weight) is affine, so its sign at the corners decides the sign in the box; segments by field, order by monotonicity of the parameter |
| C117 | IEEE + EXACT | distance | FloatBtree.v: C77's triangle inequality with 15 u, the sum R + radius loses one u, and rounding slack * (R + radius) is monotone, so a point in range is never behind a skipped node; induction on the tree |
| C118 | EXACT | transforms, intersect_ray, is_inside | ExactScene.v: induction on the scene graph; one move is C43 (round trip), C46 (at commutes with transforms) and C16 at the leaves, flattening is C44 (and_then) |
| C119 | EXACT | center, diagonal, corner, distance, overlaps | ExactCircum.v: squared distances axis by axis; minimality from the parallelogram law at the two ends of the diagonal, disjointness from a common point and the triangle inequality |
| C120 | EXACT | intersect_ray, at, distance, diagonal | ExactMarch.v: C16 gives the parameters inside the box, the distance of two points of a ray is the difference of their parameters times the length of the direction, two points of a box are at most the diagonal apart |
| C121 | EXACT | dot, cross, length, arithmetic, at | ExactReflect.v: bilinearity of dot, one field identity per claim, the squared distance to at(t) is the one at the foot plus (t - foot)^2 * dot(d, d), Lagrange's identity in 3D |
| C122 | EXACT | cross, dot, point arithmetic, at, union, intersect_ray | ExactTri.v: Cramer's rule for the three unknowns, one ring identity per axis; convexity of the box and C16 for the box test |
| C123 | EXACT | dot, point arithmetic, at, distance | ExactSphere.v: the squared distance to at(t) is a quadratic polynomial in t; completing the square gives its sublevel interval |
| C124 | EXACT | translate, rotate, rotate_axis, scale, and_then, inverse, transform_point, transform_vector | ExactPivot.v: C44 turns the chain into successive maps; affine form; C41, C42 (Rodrigues) and C94 for rotations and similarities; fixed points by an orthogonal decomposition |
| C57, C58 | IEEE + exact | ray intersect | per-axis slab lemmas (SlabBase.v): monotone rounding, sign of quotients, NaN-ignoring min/max |

## 3. Files

* Model: `Scalar Types Vector2 Vector3 Point2 Point3 Ray BoundingBox2 BoundingBox3 Transform2 Transform3` (generic),
  `Api` (traits as classes and the free functions), `Float` (IEEE instance), `XReal` (exact instance), `Arith` (`arith` = either an IEEE format with a platform or the exact
  instance: a theorem `forall A : arith` holds for f32, f64 and exact arithmetic at once).
* Specifications, independent of the model's helpers: `SpecOrder` (order, boxes as sets), `SpecStruct` (stores, bits),
  `SpecReal` (real vectors, norms, n x n matrices as functions, Laplace determinant), `SpecTrans` (weights, images,
  inductive set of constructible transforms), `SpecBox` (boxes and rays over R), `SpecHist` (histories of unions), `SpecAxis` (axis-preserving linear parts), `SpecFloat` (integer parts), `SpecErr`
  (unit roundoff, real value of a float, permanents), `SpecRay` (exact hits of a float ray, slack),
  `SpecGrid` (values on a dyadic grid), `SpecSame` (== or both NaN), `SpecScale` (change of units by 2^k), SpecPivot.v: transform about a pivot, SpecSphere.v: ray-ball function, SpecTri.v: ray-triangle function, hits, SpecReflect.v: projection, mirror image, foot of the perpendicular, SpecScene.v: scene graphs, what they cover, casting, picking, flattening, SpecBtree.v: trees of balls, searches that skip balls, SpecRtree.v: trees of boxes with stored bounds, histories, SpecHash.v: cells of a uniform grid, SpecPrune.v: sweep and prune, SpecCull.v: boxes against half-spaces, SpecSweep.v: boxes in motion, SpecSnap.v: boxes with integral corners, SpecBall.v: box around a ball, range search, SpecOct.v: sub-boxes at a point, index for a point, descent, SpecHull.v: farthest corner in a direction, list of corners, bounding box of a list of points, SpecNear.v: clamp, trees of points, nearest-neighbour search, SpecKd.v: below/above (assigning one corner coordinate), kd-trees, cells, front-to-back walk, Before, `SpecRing` (laws of a commutative ring with division by units), `SpecDiff` (same sign, within a factor 2), `SpecPar` (between, ahead, behind), `SpecSim` (similarities with their factor), `SpecBvh` (trees of boxes, pruned searches), `SpecClip` (parameters in a returned range, rays not in a face plane), `SpecCam` (safe camera parameters, sine of an angle), `SpecIndex` (array slots of matrix elements), `SpecNan` (being NaN), `SpecRange` (magnitudes bounded by powers of two, the safe range), `SpecPerm` (signed axis permutations), `SpecUndo` (distance of a product from the identity), `SpecChain` (transforms built from affine constructors, exact products of lists of matrices), `SpecLook` (acceptable parameters of look_at), `SpecInv` (deleted row and column, error of a quotient), `SpecRot` (exact rotations, accuracy of sin_cos).
* Proofs: all other files. `OrdLaws`, `XArith`, `FloatLaws`, `ErrBase`, `SlabBase` are libraries of facts on scalars;
  `Order*`, `Struct*`, `Exact*`, `Float*` the proofs.
* Theorems: `Props*.v`. Every theorem is followed by `Print Assumptions`; next to the theorems are `Example`s that meet
  the hypotheses on concrete non-trivial values.

## 4. Findings: expected laws that are false of the code

Each is a theorem (name contains `refuted`, or stated as a positive characterisation).

1. `union(empty(), empty())` is `infinite()` (C07).
2. `intersect(infinite(), empty())` is `Some` of a box containing everything (C11).
3. Rays inside a face plane of a box are never reported (0/0 = NaN is ignored by min/max) (C17).
4. Every ray hits `empty()` (C19).
5. `normalize` gives NaN/inf for tiny and 0 for huge finite non-zero vectors (C24).
6. Release builds: out-of-range matrix indices silently read/write other elements, with u32 wrap-around (C35).
7. Float `inverse`: invertible matrices rejected, singular ones accepted, NaN result for finite input (C39).
8. `transform` of a bounding box does not contain the transformed contents for general rotations (C47), and
   transforming `infinite()` by the identity gives a NaN box (C47).
9. `look_at` never reports degenerate parameters: it returns `Ok` of a NaN transform (C49).
10. `center()` of a finite ordered box whose extent overflows is not inside it (C13).

11. Growing a box or searching a list with NaN coordinates depends on the order: a first point with a NaN coordinate makes the
    box infinite in that dimension (C60); a NaN candidate makes `closest`/`farthest` folds forget earlier candidates (C64).

12. In floating point `transform` of a box by the identity can lose points of the box: the far corner is recomputed as
    `min + (max - min)` (C71).
13. In floating point a ray that exactly touches a box can be reported as a miss, and `ray.at(start)` of a reported range need not be
    inside the box (C72).
14. In floating point the dot product of two normalised vectors can exceed 1 (so `acos` of it is NaN), `dot(v, v)` can exceed
    `length(v)^2`, and a direct distance can exceed the sum of two legs (C77).
15. `normalize` of a vector so short that its squared length is subnormal can have components above 1 (C87_range_needed): f32 (13 * 2^-78, 0) has length below its own x component.
16. `inverse` (and `try_from`) of a matrix with a NaN entry returns `Ok` with all entries NaN; a ray with a NaN coordinate can hit a box (C90).
17. `look_at` with `up` parallel to the view direction can return `Ok` of a finite transform whose axes are rounding noise: f64, eye (0,0,0), target (1,7,3), up (3,21,9) gives an x axis nearly parallel to the z axis (C91).
18. Two boxes that do not overlap can both be reported hit at the same ray parameter, in floating point: [0,1] and [1+2^-52,2] seen from -1 in direction 1 (C92).
19. A bounding volume hierarchy can lose a hit: a flat box that is hit by a ray in its plane is missed once it is united with a box that makes the plane a face of the union (C93).
20. A ray with direction zero started outside a box is reported as a hit (range infinity..infinity) or a miss depending on the signs of its zeros; a ray beside a half-infinite box is reported as a hit although it is never inside (C96).
21. In floating point the cross product of two vectors that are not parallel can be exactly zero: f32, e = 2^-12, (1, 1+e, 0) and (1+e, 1+2e, 0) (C99).
22. `normalize` is not idempotent in floating point: f64 (1, 1); and normalize((1,1)*3) differs from normalize((1,1)) (C101).
23. A ray that runs in the plane at which a box is cut, through the interior of the box, hits the box but neither half (C102).
24. The box new(c - (r,r), c + (r,r)) around a ball can miss a point whose computed distance from c equals r (C108): f64, c = (-3*2^-55, 0), r = 1, q = (1, 0). A broad phase that relies on it needs slack.
25. A moving box can be tested against an obstacle directly (overlaps of the moved box) or as a point against the grown obstacle. In floating point the two can disagree (C111): f64, b = [1,2]x[0,1], v = (2^-60, 0), t = 1, c = [0,1]x[0,1]: the moved box overlaps c, the point is outside the grown box.
26. In floating point, points with computed distance(p, q) <= h (real distance slightly greater) can lie two cells apart in a grid of spacing h, so looking at the 3x3 neighbouring cells can miss a neighbour (C114): f64, h = 1, p = (1, 0), q = (-2^-60, 0): distance(p, q) is 1, the cells are (1, 0) and (-1, 0).
27. A tree of balls searched by the plain triangle inequality (skip if `distance(q, c) > R + radius`) loses points in f64: with q = (0, 0), c = (4, 4) and the point (1, 1),
    `distance(q, c) > distance(q, p) + distance(c, p)`, computed.  A factor 1 + 20 u on the sum repairs it. (C117)

## 5. Trusted base

* Coq 8.16.1 kernel (including `vm_compute`).
* Axioms reported by `Print Assumptions`, all of the Coq standard library (through `Reals` and Flocq's use of it):
  `ClassicalDedekindReals.sig_forall_dec`, `ClassicalDedekindReals.sig_not_dec`,
  `FunctionalExtensionality.functional_extensionality_dep` (every theorem about reals or floats) and
  `Classical_Prop.classic` (theorems that go through Flocq). Theorems for an arbitrary scalar type (parts of
  PropsStruct: C30, C31, C34, C45, C50...) are closed under the global context. No axiom is added by this development.
* Our reading of the Rust source: the definitions of the model.
* Flocq's definitions of IEEE-754 arithmetic as the meaning of Rust's `f32`/`f64` operators (Flocq adds no axiom).

## 6. Not modelled

* NaN payloads and NaN signs (Flocq `BinarySingleNaN` has one NaN).
* `Debug` formatting, `Clone`/`Copy` (values are immutable in the model), inlining, type aliases
  (`Point2f`...: instances of the generic types).
* Performance, code generation (no fused multiply-add contraction; rustc performs none; x87 excess precision excluded).
* The concrete values of libm `sin_cos`: universally quantified at IEEE level, `sin`/`cos` at exact level.
* 16-bit `usize` (`as usize` from `u32` is the identity here).

## 7. Tests of the theorems

`seeded/LOG.jsonl`: model edits in a scratch copy, with the theorems that fail. A theorem counts as failed when its
own proof, or a lemma it depends on, no longer compiles (the failing lemmas are replaced by `Admitted` in the scratch
copy and the dependent theorems are read off `Print Assumptions`).
