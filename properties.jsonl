{"id": "C01", "title": "Scalar min/max order law and NaN handling", "statement": "min(a,b) (max(a,b)) returns one of its arguments; if neither is NaN the result is <= (>=) both; if exactly one is NaN the other argument is returned; it is NaN only if both are.", "quantifier": "all pairs of scalars; every value of the scalar type, for both f32 and f64 (all finite values, subnormals, signed zeros, infinities, NaN), every admissible choice of the sign of min/max of equal zeros and every sin_cos library", "why_tests_cant": "The input space (2^64 to 2^1024 combinations) cannot be enumerated; NaN, infinities and signed zeros interact.", "anchors": ["src/minmax.rs: min, max, MinMax", "src/scalar.rs: impl MinMax for S"]}
{"id": "C02", "title": "Point and vector min/max are the element-wise lattice operations", "statement": "For NaN-free points/vectors, min(a,b) is a lower bound of both in every coordinate and any coordinate-wise lower bound of both is <= it (dually max); commutative, associative and idempotent with respect to ==.", "quantifier": "all pairs/triples of NaN-free 2D/3D points and vectors; every value of the scalar type, for both f32 and f64 (all finite values, subnormals, signed zeros, infinities, NaN), every admissible choice of the sign of min/max of equal zeros and every sin_cos library", "why_tests_cant": "The input space (2^64 to 2^1024 combinations) cannot be enumerated; greatest-lower-bound quantifies over all competitors.", "anchors": ["src/point2.rs: min,max", "src/point3.rs: min,max", "src/vector2.rs: min,max", "src/vector3.rs: min,max"]}
{"id": "C03", "title": "BoundingBox::new builds the smallest ordered box of two points", "statement": "For NaN-free p1, p2 the box new(p1,p2) has min <= max in every dimension, contains p1 and p2, is contained in every box containing both, and does not depend on the argument order (up to ==).", "quantifier": "all pairs of NaN-free points in 2D and 3D; every value of the scalar type, for both f32 and f64 (all finite values, subnormals, signed zeros, infinities, NaN), every admissible choice of the sign of min/max of equal zeros and every sin_cos library", "why_tests_cant": "The input space (2^64 to 2^1024 combinations) cannot be enumerated; minimality quantifies over all other boxes.", "anchors": ["src/boundingbox2.rs: new", "src/boundingbox3.rs: new"]}
{"id": "C04", "title": "is_inside is exactly the closed box; empty and infinite are the extremes", "statement": "is_inside(p) holds iff min <= p <= max in every dimension, hence is false for any NaN coordinate; empty() contains no point at all; infinite() contains every NaN-free point, infinities included.", "quantifier": "all boxes and points; every value of the scalar type, for both f32 and f64 (all finite values, subnormals, signed zeros, infinities, NaN), every admissible choice of the sign of min/max of equal zeros and every sin_cos library", "why_tests_cant": "The input space (2^64 to 2^1024 combinations) cannot be enumerated; 'no point' and 'every point' are universal.", "anchors": ["src/boundingbox2.rs: is_inside, empty, infinite", "src/boundingbox3.rs: is_inside, empty, infinite"]}
{"id": "C05", "title": "Union of boxes is the smallest box containing both", "statement": "For ordered boxes a, b: every point inside a or inside b is inside union(a,b); every box containing all points of a and of b contains union(a,b).", "quantifier": "all pairs of ordered boxes, all points, all competitor boxes, 2D and 3D; every value of the scalar type, for both f32 and f64 (all finite values, subnormals, signed zeros, infinities, NaN), every admissible choice of the sign of min/max of equal zeros and every sin_cos library", "why_tests_cant": "The input space (2^64 to 2^1024 combinations) cannot be enumerated; minimality ranges over all boxes.", "anchors": ["src/boundingbox2.rs: union", "src/boundingbox3.rs: union", "src/union.rs: union"]}
{"id": "C06", "title": "Union algebra", "statement": "On ordered boxes union is commutative, associative and idempotent (up to ==), infinite() is absorbing, and empty() is neutral: union(empty(), b) == b == union(b, empty()).", "quantifier": "all (triples of) ordered boxes; every value of the scalar type, for both f32 and f64 (all finite values, subnormals, signed zeros, infinities, NaN), every admissible choice of the sign of min/max of equal zeros and every sin_cos library", "why_tests_cant": "The input space (2^64 to 2^1024 combinations) cannot be enumerated; algebraic laws over all triples.", "anchors": ["src/boundingbox2.rs: union, empty, infinite", "src/boundingbox3.rs: union, empty, infinite"]}
{"id": "C07", "title": "Union with the empty box", "statement": "For every ordered box b, union(empty(), b) == b == union(b, empty()); for every NaN-free box b, inverted ones included, union(empty(), b) == new(b.min, b.max). FINDING: hence empty() is not neutral for itself: union(empty(), empty()) == infinite(), which contains every NaN-free point.", "quantifier": "all boxes with NaN-free corners; every value of the scalar type, for both f32 and f64 (all finite values, subnormals, signed zeros, infinities, NaN), every admissible choice of the sign of min/max of equal zeros and every sin_cos library", "why_tests_cant": "The expected law is part of an accumulate-from-empty idiom; the failing operand is a special value no ordinary test uses.", "anchors": ["src/boundingbox2.rs: union, empty, new", "src/boundingbox3.rs: union, empty, new"]}
{"id": "C08", "title": "Accumulating points from empty() gives the tight bounding box", "statement": "Folding union over any non-empty list of NaN-free points, starting at empty(), gives a box that contains every point of the list and whose every face is touched by some point of the list (so it is the smallest such box), irrespective of list order.", "quantifier": "all non-empty finite lists of NaN-free points, any length; every value of the scalar type, for both f32 and f64 (all finite values, subnormals, signed zeros, infinities, NaN), every admissible choice of the sign of min/max of equal zeros and every sin_cos library", "why_tests_cant": "Unbounded list length; tightness over all competitors.", "anchors": ["src/boundingbox2.rs: union (point)", "src/boundingbox3.rs: union (point)"]}
{"id": "C09", "title": "overlaps decides whether the boxes share a point", "statement": "overlaps is symmetric for all boxes; for ordered boxes it is true iff some point is inside both.", "quantifier": "all pairs of boxes; every value of the scalar type, for both f32 and f64 (all finite values, subnormals, signed zeros, infinities, NaN), every admissible choice of the sign of min/max of equal zeros and every sin_cos library", "why_tests_cant": "The input space (2^64 to 2^1024 combinations) cannot be enumerated; the right-hand side is an existential over all points.", "anchors": ["src/boundingbox2.rs: overlaps", "src/boundingbox3.rs: overlaps"]}
{"id": "C10", "title": "Box intersection is set intersection", "statement": "For ordered boxes a, b: intersect(a,b) is None iff no point is in both; if it is Some(c) then c is ordered and a point is inside c iff it is inside both a and b.", "quantifier": "all pairs of ordered boxes and all points; every value of the scalar type, for both f32 and f64 (all finite values, subnormals, signed zeros, infinities, NaN), every admissible choice of the sign of min/max of equal zeros and every sin_cos library", "why_tests_cant": "The input space (2^64 to 2^1024 combinations) cannot be enumerated; set equality over all points.", "anchors": ["src/boundingbox2.rs: intersect (box)", "src/boundingbox3.rs: intersect (box)", "src/intersection.rs: intersect"]}
{"id": "C11", "title": "Which boxes intersect the empty box", "statement": "intersect(b, empty()) and intersect(empty(), b) are Some exactly when b.max is +inf and b.min is -inf in every dimension (so they are None for every box with a finite face in some dimension). FINDING: intersect(infinite(), empty()) is Some(c) and c contains every NaN-free point.", "quantifier": "all boxes whatsoever; every value of the scalar type, for both f32 and f64 (all finite values, subnormals, signed zeros, infinities, NaN), every admissible choice of the sign of min/max of equal zeros and every sin_cos library", "why_tests_cant": "Only the special box infinite() (or one with infinite faces) breaks the law.", "anchors": ["src/boundingbox2.rs: intersect, overlaps, empty, infinite", "src/boundingbox3.rs: intersect, overlaps, empty, infinite"]}
{"id": "C12", "title": "corner(i) enumerates exactly the corners; index contract", "statement": "For index in range, corner(i) takes for each dimension the min or max coordinate according to that dimension's bit of i; all corners of an ordered box are inside it and they are pairwise given by distinct bit patterns; an index out of range panics when debug assertions are on and otherwise behaves as the index reduced modulo 4 (8 in 3D).", "quantifier": "all boxes, all u32 indices, both build profiles; every value of the scalar type, for both f32 and f64 (all finite values, subnormals, signed zeros, infinities, NaN), every admissible choice of the sign of min/max of equal zeros and every sin_cos library", "why_tests_cant": "2^32 indices times all boxes times build profiles.", "anchors": ["src/boundingbox2.rs: corner", "src/boundingbox3.rs: corner"]}
{"id": "C13", "title": "center lies inside the box", "statement": "For every ordered box with finite corners whose extents do not overflow, center() is inside the box in floating-point arithmetic; in exact arithmetic it is the midpoint.", "quantifier": "all finite ordered boxes; every value of the scalar type, for both f32 and f64 (all finite values, subnormals, signed zeros, infinities, NaN), every admissible choice of the sign of min/max of equal zeros and every sin_cos library", "why_tests_cant": "The input space (2^64 to 2^1024 combinations) cannot be enumerated; relies on rounding of every min/max pair incl. subnormals.", "anchors": ["src/boundingbox2.rs: center, diagonal", "src/boundingbox3.rs: center, diagonal"]}
{"id": "C14", "title": "Extents agree and are non-negative; min/max_dimension of a box pick the smallest/largest extent", "statement": "extent(d) equals width/height/depth and the d-component of diagonal() and of size(); it is >= 0 for ordered boxes with finite corners; extent(min_dimension()) <= extent(d) <= extent(max_dimension()) for all d when no extent is NaN.", "quantifier": "all boxes; every value of the scalar type, for both f32 and f64 (all finite values, subnormals, signed zeros, infinities, NaN), every admissible choice of the sign of min/max of equal zeros and every sin_cos library", "why_tests_cant": "The input space (2^64 to 2^1024 combinations) cannot be enumerated; comparison chains with ties.", "anchors": ["src/boundingbox2.rs: width,height,size,extent,min_dimension,max_dimension", "src/boundingbox3.rs: width,height,depth,size,extent,min_dimension,max_dimension"]}
{"id": "C15", "title": "area, surface_area and volume", "statement": "In exact arithmetic area = w*h, volume = w*h*d, surface_area = 2(wh+wd+hd); all non-negative for ordered boxes and monotone under box inclusion; in floating point area/volume/surface_area of an ordered finite box is never negative.", "quantifier": "all ordered boxes; exact reals, and every value of the scalar type, for both f32 and f64 (all finite values, subnormals, signed zeros, infinities, NaN), every admissible choice of the sign of min/max of equal zeros and every sin_cos library", "why_tests_cant": "The input space (2^64 to 2^1024 combinations) cannot be enumerated; monotonicity over all pairs.", "anchors": ["src/boundingbox2.rs: area", "src/boundingbox3.rs: surface_area, volume"]}
{"id": "C16", "title": "Ray-box intersection is exact (no axis-parallel grazing)", "statement": "In exact arithmetic, for a finite ordered box and a ray with non-zero direction that does not run inside a face plane: the result is None iff ray.at(t) is outside for all t >= 0; otherwise it is Some(s..e) with 0 <= s <= e and, for every t >= 0, ray.at(t) is inside the box iff s <= t <= e.", "quantifier": "all boxes, rays and ray parameters t; every finite real input (the generic code instantiated at exact extended-real arithmetic)", "why_tests_cant": "Universal over a continuum of t and rays.", "anchors": ["src/boundingbox2.rs: intersect (ray)", "src/boundingbox3.rs: intersect (ray)", "src/ray2.rs: at", "src/ray3.rs: at"]}
{"id": "C17", "title": "Ray-box intersection for rays lying in a face plane", "statement": "For every finite ordered box and every ray with non-zero direction, the result is None iff no t >= 0 is 'seen', and otherwise the exact interval of 'seen' parameters, where t is seen iff ray.at(t) is inside the box and, on every axis where the direction component is zero, the origin is strictly between the two faces or the box is flat there. FINDING: a ray that runs inside a face plane of a non-flat box is always reported as a miss, although it goes through points of the box.", "quantifier": "all finite ordered boxes, all rays with non-zero direction, all t >= 0; exact arithmetic", "why_tests_cant": "Only inputs with an exact coincidence (0/0 = NaN) behave differently.", "anchors": ["src/boundingbox2.rs: intersect (ray)", "src/boundingbox3.rs: intersect (ray)"]}
{"id": "C18", "title": "Ray-box result is always a well-formed range", "statement": "Whatever the box and the ray (NaN, infinities, zero direction, inverted boxes), if the result is Some(start..end) then neither bound is NaN and 0 <= start <= end.", "quantifier": "all boxes and rays whatsoever; every value of the scalar type, for both f32 and f64 (all finite values, subnormals, signed zeros, infinities, NaN), every admissible choice of the sign of min/max of equal zeros and every sin_cos library", "why_tests_cant": "The input space (2^64 to 2^1024 combinations) cannot be enumerated; NaN-propagation on all paths.", "anchors": ["src/boundingbox2.rs: intersect (ray)", "src/boundingbox3.rs: intersect (ray)"]}
{"id": "C19", "title": "Rays and the boxes empty() and infinite()", "statement": "For every ray with finite origin, whatever its direction (zero, infinite, NaN), intersecting infinite() gives Some(0..inf). FINDING: intersecting empty() gives the same Some(0..inf): the ray test treats the empty box as the infinite one.", "quantifier": "all rays with finite origin; exact arithmetic and every value of the scalar type, for both f32 and f64 (all finite values, subnormals, signed zeros, infinities, NaN), every admissible choice of the sign of min/max of equal zeros and every sin_cos library", "why_tests_cant": "empty() is a special value; the failing case is any ordinary ray.", "anchors": ["src/boundingbox2.rs: intersect (ray), empty", "src/boundingbox3.rs: intersect (ray), empty"]}
{"id": "C20", "title": "Dot product: symmetry and bilinearity", "statement": "dot(a,b) and dot(b,a) are the identical floating-point value for all inputs; in exact arithmetic dot is bilinear, positive definite and satisfies Cauchy-Schwarz.", "quantifier": "all vector pairs; every value of the scalar type, for both f32 and f64 (all finite values, subnormals, signed zeros, infinities, NaN), every admissible choice of the sign of min/max of equal zeros and every sin_cos library; exact reals", "why_tests_cant": "The input space (2^64 to 2^1024 combinations) cannot be enumerated; laws over all vectors.", "anchors": ["src/vector2.rs: dot", "src/vector3.rs: dot", "src/dot.rs: dot"]}
{"id": "C21", "title": "Cross product laws", "statement": "In exact arithmetic cross(a,b) is orthogonal to a and b, anti-commutative, bilinear, |a x b|^2 = |a|^2|b|^2-(a.b)^2, zero iff a and b are parallel, satisfies the Jacobi identity and is right-handed (x cross y = z); in floating point cross(a,b) == -cross(b,a) whenever no component is NaN.", "quantifier": "all vector pairs/triples; every finite real input (the generic code instantiated at exact extended-real arithmetic); every value of the scalar type, for both f32 and f64 (all finite values, subnormals, signed zeros, infinities, NaN), every admissible choice of the sign of min/max of equal zeros and every sin_cos library", "why_tests_cant": "The input space (2^64 to 2^1024 combinations) cannot be enumerated; laws over all vectors.", "anchors": ["src/vector3.rs: cross", "src/cross.rs: cross"]}
{"id": "C22", "title": "Vector length is a norm", "statement": "In exact arithmetic length(v) = sqrt(dot(v,v)), is zero iff v is zero, |s| homogeneous, satisfies the triangle inequality; in floating point length(v) is never negative and length(-v), length(v) are identical.", "quantifier": "all vectors; every finite real input (the generic code instantiated at exact extended-real arithmetic); every value of the scalar type, for both f32 and f64 (all finite values, subnormals, signed zeros, infinities, NaN), every admissible choice of the sign of min/max of equal zeros and every sin_cos library", "why_tests_cant": "The input space (2^64 to 2^1024 combinations) cannot be enumerated; triangle inequality over all pairs.", "anchors": ["src/vector2.rs: length", "src/vector3.rs: length", "src/length.rs: length"]}
{"id": "C23", "title": "normalize gives a unit vector in the same direction", "statement": "In exact arithmetic, for every non-zero v, normalize(v) has length 1 and v = length(v)*normalize(v); idempotent; unchanged by positive scaling.", "quantifier": "all non-zero vectors; every finite real input (the generic code instantiated at exact extended-real arithmetic)", "why_tests_cant": "The input space (2^64 to 2^1024 combinations) cannot be enumerated; universal over vectors.", "anchors": ["src/vector2.rs: normalize", "src/vector3.rs: normalize"]}
{"id": "C24", "title": "normalize is accurate whenever the squared length is in range", "statement": "If v.v computed in floating point is finite and not below min_subnormal/u, then normalize(v) is finite, each component is within 7u relative error plus one smallest subnormal of v_i/|v| and the exact length of the result is within 8u of 1. FINDING: outside that range it fails: there are finite non-zero vectors whose normalisation has an infinite and a NaN component (underflow) or is the zero vector (overflow).", "quantifier": "all vectors in the stated range; every value of the scalar type, for both f32 and f64 (all finite values, subnormals, signed zeros, infinities, NaN), every admissible choice of the sign of min/max of equal zeros and every sin_cos library", "why_tests_cant": "Only vectors whose squared length under/overflows fail: a sparse set tests do not hit.", "anchors": ["src/vector2.rs: normalize", "src/vector3.rs: normalize"]}
{"id": "C25", "title": "Relative length comparisons agree with length()", "statement": "In exact arithmetic is_shorter_than/is_longer_than hold iff length() compares so. In floating point: length(a) < length(b) implies a.is_shorter_than(b); shortest/longest return one of the arguments whose length() is <= / >= both lengths whenever neither dot product is NaN; is_longer_than is is_shorter_than with swapped operands.", "quantifier": "all pairs of vectors; every value of the scalar type, for both f32 and f64 (all finite values, subnormals, signed zeros, infinities, NaN), every admissible choice of the sign of min/max of equal zeros and every sin_cos library", "why_tests_cant": "The input space (2^64 to 2^1024 combinations) cannot be enumerated; monotonicity of rounded sqrt is needed.", "anchors": ["src/vector2.rs: is_shorter_than,is_longer_than,shortest,longest", "src/vector3.rs: same", "src/length.rs"]}
{"id": "C26", "title": "Scalar length and distance", "statement": "For scalars: length is |s|, distance is |b-a| and symmetric, shortest/longest/closest/farthest return an argument that minimises/maximises length/distance, when neither length/distance involved is NaN.", "quantifier": "all scalars; every value of the scalar type, for both f32 and f64 (all finite values, subnormals, signed zeros, infinities, NaN), every admissible choice of the sign of min/max of equal zeros and every sin_cos library", "why_tests_cant": "The input space (2^64 to 2^1024 combinations) cannot be enumerated; rounding and special values.", "anchors": ["src/scalar.rs: Length, RelativeLength, Distance, RelativeDistance impls"]}
{"id": "C27", "title": "Point distance is a metric", "statement": "distance(p,q) and distance(q,p) are the identical floating-point value and never negative; in exact arithmetic it is zero iff p = q and satisfies the triangle inequality.", "quantifier": "all points; every value of the scalar type, for both f32 and f64 (all finite values, subnormals, signed zeros, infinities, NaN), every admissible choice of the sign of min/max of equal zeros and every sin_cos library; exact reals", "why_tests_cant": "The input space (2^64 to 2^1024 combinations) cannot be enumerated; metric laws.", "anchors": ["src/point2.rs: distance", "src/point3.rs: distance", "src/distance.rs"]}
{"id": "C28", "title": "closest/farthest agree with distance()", "statement": "closest(p,a,b) returns a or b; in floating point the returned point's distance() to p is <= that of both candidates (>= for farthest) whenever neither distance is NaN; distance(p,a) < distance(p,b) implies is_closer_to; in exact arithmetic is_closer_to/is_farther_from hold iff the distances compare so.", "quantifier": "all triples of points; every value of the scalar type, for both f32 and f64 (all finite values, subnormals, signed zeros, infinities, NaN), every admissible choice of the sign of min/max of equal zeros and every sin_cos library", "why_tests_cant": "The input space (2^64 to 2^1024 combinations) cannot be enumerated; monotone rounding of sqrt.", "anchors": ["src/point2.rs: is_closer_to,is_farther_from,closest,farthest", "src/point3.rs: same"]}
{"id": "C29", "title": "Affine arithmetic of points and vectors", "statement": "In exact arithmetic (p+v)-v = p, p+(q-p) = q, (p+u)+v = p+(u+v), p-p = 0, vectors form a vector space under +,-,neg,*,/, s*v = v*s, (v*s)/s = v for s != 0, and point/vector conversions round-trip and commute with the operations.", "quantifier": "all points, vectors and scalars; every finite real input (the generic code instantiated at exact extended-real arithmetic)", "why_tests_cant": "The input space (2^64 to 2^1024 combinations) cannot be enumerated; algebraic laws.", "anchors": ["src/point2.rs: Add,Sub,Neg,Mul,Div,From", "src/point3.rs", "src/vector2.rs", "src/vector3.rs"]}
{"id": "C30", "title": "Compound assignment agrees with the binary operator; scalar-on-the-left agrees", "statement": "x += v, x -= v, x *= s, x /= s leave x holding exactly x + v, x - v, x * s, x / s (bit for bit), and s * x equals x * s, for points, vectors and matrices.", "quantifier": "all operands; every value of the scalar type, for both f32 and f64 (all finite values, subnormals, signed zeros, infinities, NaN), every admissible choice of the sign of min/max of equal zeros and every sin_cos library", "why_tests_cant": "The input space (2^64 to 2^1024 combinations) cannot be enumerated; per-field updates can be individually wrong.", "anchors": ["src/point2.rs: *_assign", "src/point3.rs", "src/vector2.rs", "src/vector3.rs", "src/transform2.rs: MulAssign, DivAssign", "src/transform3.rs: MulAssign, DivAssign"]}
{"id": "C31", "title": "Indexing by dimension behaves like a store", "statement": "After any sequence of writes through IndexMut, reading a dimension returns the last value written to it (or the original), other dimensions are unaffected; permute(dx,dy[,dz]) reads exactly the named dimensions; axis(d) has 1 in d and 0 elsewhere.", "quantifier": "all points/vectors, all write histories of any length", "why_tests_cant": "Unbounded write histories.", "anchors": ["src/point2.rs: Index, IndexMut, permute", "src/point3.rs", "src/vector2.rs: axis", "src/vector3.rs: axis"]}
{"id": "C32", "title": "min_dimension/max_dimension of points and vectors", "statement": "For NaN-free points/vectors, the absolute value of the component in min_dimension() (max_dimension()) is <= (>=) that of every other dimension; ties resolve to the first (last) dimension.", "quantifier": "all NaN-free points and vectors; every value of the scalar type, for both f32 and f64 (all finite values, subnormals, signed zeros, infinities, NaN), every admissible choice of the sign of min/max of equal zeros and every sin_cos library", "why_tests_cant": "The input space (2^64 to 2^1024 combinations) cannot be enumerated; tie patterns.", "anchors": ["src/point2.rs", "src/point3.rs", "src/vector2.rs", "src/vector3.rs"]}
{"id": "C33", "title": "Element-wise floor/ceil/round/trunc/fract/abs", "statement": "For every finite component x: floor is the greatest integer <= x, ceil the least integer >= x, round the nearest integer with ties away from zero, trunc the integer part towards zero, fract = x - trunc(x) exactly with |fract| < 1 and the sign of x, abs the absolute value; trunc + fract == x.", "quantifier": "all points and vectors with finite components; every value of the scalar type, for both f32 and f64 (all finite values, subnormals, signed zeros, infinities, NaN), every admissible choice of the sign of min/max of equal zeros and every sin_cos library", "why_tests_cant": "The input space (2^64 to 2^1024 combinations) cannot be enumerated; exactness over all mantissas/exponents.", "anchors": ["src/point2.rs: floor,ceil,round,trunc,fract,abs", "src/point3.rs", "src/vector2.rs", "src/vector3.rs"]}
{"id": "C34", "title": "Matrix element access behaves like a row-major store", "statement": "For rows/columns in range get/get_mut/set never panic, address distinct elements, get after any sequence of sets returns the last value written to that element, and new(a).get(r,c) = a[n*r+c].", "quantifier": "all matrices, all in-range indices, all write histories of any length", "why_tests_cant": "Unbounded write histories.", "anchors": ["src/transform2.rs: get,get_mut,set,linear_index,new", "src/transform3.rs: same"]}
{"id": "C35", "title": "Out-of-range matrix indices", "statement": "With debug assertions on, get, get_mut and set panic for every row or column >= n. Without them (release profile) get(r,c) reads element (n*r + c) of the row-major array with u32 wrap-around if that is < n*n and panics otherwise; get_mut and set write exactly that element; with overflow checks but no debug assertions, pairs with n*r + c >= 2^32 panic as well. FINDING: so in release builds out-of-range pairs such as (0, n+2) silently read another element.", "quantifier": "all u32 row/column pairs, both build profiles", "why_tests_cant": "2^64 index pairs; only release builds misbehave, tests run in debug.", "anchors": ["src/transform2.rs: linear_index", "src/transform3.rs: linear_index"]}
{"id": "C36", "title": "Transpose", "statement": "get(transpose(M), r, c) = get(M, c, r); transpose is an involution; transpose(A*B) = transpose(B)*transpose(A) and p*M = transpose(M)*p hold bit for bit in floating point.", "quantifier": "all matrices, points, vectors; every value of the scalar type, for both f32 and f64 (all finite values, subnormals, signed zeros, infinities, NaN), every admissible choice of the sign of min/max of equal zeros and every sin_cos library", "why_tests_cant": "The input space (2^64 to 2^1024 combinations) cannot be enumerated; entry permutation errors.", "anchors": ["src/transform2.rs: transpose, Mul", "src/transform3.rs: transpose, Mul"]}
{"id": "C37", "title": "Matrix product is the mathematical product", "statement": "In exact arithmetic get(A*B,r,c) = sum_k get(A,r,k)*get(B,k,c); product is associative, identity() is neutral, scalar multiplication and division act entry-wise; in floating point identity()*M == M == M*identity() for finite M.", "quantifier": "all matrices; every finite real input (the generic code instantiated at exact extended-real arithmetic); every value of the scalar type, for both f32 and f64 (all finite values, subnormals, signed zeros, infinities, NaN), every admissible choice of the sign of min/max of equal zeros and every sin_cos library", "why_tests_cant": "The input space (2^64 to 2^1024 combinations) cannot be enumerated; algebraic laws.", "anchors": ["src/transform2.rs: Mul, identity", "src/transform3.rs: Mul, identity"]}
{"id": "C38", "title": "Matrix inverse succeeds exactly on invertible matrices and is the two-sided inverse", "statement": "In exact arithmetic M.inverse() is Ok iff some N satisfies M*N = identity, iff det M != 0; then M*inverse = inverse*M = identity; otherwise Err. It never panics in any build profile.", "quantifier": "all finite matrices; every finite real input (the generic code instantiated at exact extended-real arithmetic)", "why_tests_cant": "The input space (2^64 to 2^1024 combinations) cannot be enumerated; cofactor/sign errors, all matrices.", "anchors": ["src/transform2.rs: inverse", "src/transform3.rs: inverse"]}
{"id": "C39", "title": "Matrix inverse in floating point: what Ok and Err tell", "statement": "For matrices of integers bounded by B with n!*B^n < 2^prec, inverse() is Err iff the determinant is 0, and an Ok result is finite and each entry is within u relative error of the exact inverse. For every matrix, Err implies that all entries are finite and |det M| <= ((1+u)^k - 1)*per|M| + (underflow term), i.e. M is within rounding error of a singular matrix. FINDING: in general Err is not equivalent to singularity: there are finite matrices that are invertible but rejected, singular but accepted, and accepted with a NaN result.", "quantifier": "all such matrices, 3x3 and 4x4; every value of the scalar type, for both f32 and f64 (all finite values, subnormals, signed zeros, infinities, NaN), every admissible choice of the sign of min/max of equal zeros and every sin_cos library", "why_tests_cant": "Only matrices whose determinant under/overflows or is contaminated by rounding fail.", "anchors": ["src/transform2.rs: inverse", "src/transform3.rs: inverse"]}
{"id": "C40", "title": "Translation and scaling act exactly, in floating point", "statement": "For finite operands translate(v) maps point p to exactly p+v (one rounding per component) and leaves vectors unchanged; scale(s..) multiplies each component by its factor with one rounding; identity leaves points and vectors unchanged; results up to == .", "quantifier": "all finite points, vectors and factors; every value of the scalar type, for both f32 and f64 (all finite values, subnormals, signed zeros, infinities, NaN), every admissible choice of the sign of min/max of equal zeros and every sin_cos library", "why_tests_cant": "The input space (2^64 to 2^1024 combinations) cannot be enumerated; hidden extra roundings.", "anchors": ["src/transform2.rs: translate, scale, scale_uniform, identity, Mul", "src/transform3.rs: same"]}
{"id": "C41", "title": "Rotations are proper rotations with the documented orientation", "statement": "In exact arithmetic rotate/rotate_x/rotate_y/rotate_z preserve dot products (and cross products), have determinant 1, compose by adding angles, rotate(0) = identity, fix the axis, and rotate by +90 degrees takes x to y (2D, z), y to z (x), z to x (y).", "quantifier": "all angles and vectors; every finite real input (the generic code instantiated at exact extended-real arithmetic)", "why_tests_cant": "The input space (2^64 to 2^1024 combinations) cannot be enumerated; trigonometric identities over all angles.", "anchors": ["src/transform2.rs: rotate", "src/transform3.rs: rotate_x,rotate_y,rotate_z"]}
{"id": "C42", "title": "rotate_axis is Rodrigues' rotation", "statement": "In exact arithmetic, for every non-zero axis a (not necessarily unit) and angle t, rotate_axis(a,t)*v = v cos t + (k x v) sin t + k (k.v)(1 - cos t) with k = a/|a|; it fixes a, preserves dot products, has determinant 1, agrees with rotate_x/y/z on the coordinate axes, depends only on the direction of a.", "quantifier": "all non-zero axes, angles, vectors; every finite real input (the generic code instantiated at exact extended-real arithmetic)", "why_tests_cant": "The input space (2^64 to 2^1024 combinations) cannot be enumerated; trigonometric identities.", "anchors": ["src/transform3.rs: rotate_axis"]}
{"id": "C43", "title": "Every reachable transform holds mutually inverse matrices", "statement": "In exact arithmetic, for every transform obtained from identity, translate, rotate*, scale (non-zero factors), try_from, look_at by any finite combination of and_then and inverse: forward*inverse = inverse*forward = identity, hence transforming a point (with non-vanishing w) or vector and then by inverse() gives it back.", "quantifier": "all construction histories of any length; every finite real input (the generic code instantiated at exact extended-real arithmetic)", "why_tests_cant": "Unbounded construction histories.", "anchors": ["src/transform2.rs: Transform2", "src/transform3.rs: Transform3"]}
{"id": "C44", "title": "and_then applies first self, then next", "statement": "In exact arithmetic t.and_then(u).transform(x) = u.transform(t.transform(x)) for points whenever neither homogeneous weight w (of t at x, of u at t(x)) vanishes, for vectors when t is affine and for rays when both are affine; for any list of transforms the folded composite equals successive application.", "quantifier": "all transforms, points, vectors, rays, lists of any length; every finite real input (the generic code instantiated at exact extended-real arithmetic)", "why_tests_cant": "Unbounded chains.", "anchors": ["src/transform2.rs: and_then, transform", "src/transform3.rs: and_then, transform"]}
{"id": "C45", "title": "Transform inverse is structural", "statement": "inverse() swaps the matrices: it is an involution bit for bit; inverse of and_then is the and_then of inverses in reverse order bit for bit; transform by inverse() uses the stored inverse matrix.", "quantifier": "all transforms; every value of the scalar type, for both f32 and f64 (all finite values, subnormals, signed zeros, infinities, NaN), every admissible choice of the sign of min/max of equal zeros and every sin_cos library", "why_tests_cant": "The input space (2^64 to 2^1024 combinations) cannot be enumerated; ", "anchors": ["src/transform2.rs: Transform2::inverse, and_then", "src/transform3.rs: Transform3::inverse, and_then"]}
{"id": "C46", "title": "Transforming a ray commutes with evaluating it", "statement": "In exact arithmetic, for affine transforms, transform(ray).at(t) = transform(ray.at(t)) for all t.", "quantifier": "all affine transforms, rays, t; every finite real input (the generic code instantiated at exact extended-real arithmetic)", "why_tests_cant": "The input space (2^64 to 2^1024 combinations) cannot be enumerated; ", "anchors": ["src/transform2.rs: transform (ray)", "src/transform3.rs: transform (ray)", "src/ray2.rs: at", "src/ray3.rs: at"]}
{"id": "C47", "title": "Transforming a bounding box", "statement": "For an affine transform, transform(b) is the box of the two transformed points T(b.min), T(b.max). It contains T(p) for every p inside b iff, in every row of the linear part, the entries belonging to axes where b is not flat do not have mixed signs; in particular for all translations and scalings. FINDING: for general rotations containment fails (rotation by 45 degrees), and transforming infinite() even by the identity gives a box that contains no point.", "quantifier": "all affine transforms, finite ordered boxes and points; exact arithmetic; the last finding in floating point too", "why_tests_cant": "True for translations/scalings/90-degree rotations usually tested; fails for general rotations.", "anchors": ["src/transform2.rs: transform (bounding box)", "src/transform3.rs: transform (bounding box)"]}
{"id": "C48", "title": "look_at maps the camera frame", "statement": "In exact arithmetic, for from != target and up not parallel to the view direction, look_at is Ok; its transform takes `from` to the origin, `target` to (0,0,|target-from|), `up` into the half-plane x = 0, y > 0, and is a rigid motion (preserves distances and orientation).", "quantifier": "all non-degenerate camera parameters; every finite real input (the generic code instantiated at exact extended-real arithmetic)", "why_tests_cant": "The input space (2^64 to 2^1024 combinations) cannot be enumerated; ", "anchors": ["src/transform3.rs: inverse_look_at, look_at"]}
{"id": "C49", "title": "look_at with degenerate parameters", "statement": "look_at is Ok for all finite parameters; it maps `from` to a finite point iff up and the view direction are linearly independent. FINDING: with from == target, a zero up or (in exact arithmetic) up parallel to the view direction it does not return Err but Ok of a transform that takes every point to NaN.", "quantifier": "all degenerate camera parameters", "why_tests_cant": "Needs NaN reasoning: the determinant test is made on NaN.", "anchors": ["src/transform3.rs: look_at, inverse"]}
{"id": "C50", "title": "try_from keeps the matrix and adds its inverse", "statement": "Transform::try_from(M) is Ok exactly when M.inverse() is Ok, and then has forward = M and inverse = M.inverse(); otherwise the same error.", "quantifier": "all matrices; every value of the scalar type, for both f32 and f64 (all finite values, subnormals, signed zeros, infinities, NaN), every admissible choice of the sign of min/max of equal zeros and every sin_cos library", "why_tests_cant": "The input space (2^64 to 2^1024 combinations) cannot be enumerated; ", "anchors": ["src/transform2.rs: try_from", "src/transform3.rs: try_from"]}
{"id": "C51", "title": "Points transform projectively, vectors linearly", "statement": "In exact arithmetic M*p is the dehomogenisation of M*(p,1) when w != 0; M*v ignores translation and is linear; M*p - M*q = M*(p-q) for affine M.", "quantifier": "all matrices, points, vectors; every finite real input (the generic code instantiated at exact extended-real arithmetic)", "why_tests_cant": "The input space (2^64 to 2^1024 combinations) cannot be enumerated; ", "anchors": ["src/transform2.rs: Mul<Point2>, Mul<Vector2>", "src/transform3.rs: Mul<Point3>, Mul<Vector3>"]}
{"id": "C52", "title": "Ray evaluation", "statement": "ray.at(0) == origin for finite rays in floating point; in exact arithmetic at(s) - at(t) = direction*(s-t).", "quantifier": "all rays and parameters; every value of the scalar type, for both f32 and f64 (all finite values, subnormals, signed zeros, infinities, NaN), every admissible choice of the sign of min/max of equal zeros and every sin_cos library; exact reals", "why_tests_cant": "The input space (2^64 to 2^1024 combinations) cannot be enumerated; ", "anchors": ["src/ray2.rs: at", "src/ray3.rs: at"]}
{"id": "C53", "title": "Derived equality", "statement": "== on points, vectors, rays, boxes, matrices, transforms is symmetric and transitive, holds iff all components are ==, and is reflexive exactly on NaN-free values.", "quantifier": "all values; every value of the scalar type, for both f32 and f64 (all finite values, subnormals, signed zeros, infinities, NaN), every admissible choice of the sign of min/max of equal zeros and every sin_cos library", "why_tests_cant": "The input space (2^64 to 2^1024 combinations) cannot be enumerated; NaN and signed zeros.", "anchors": ["derive(PartialEq) in src/*.rs"]}
{"id": "C54", "title": "Dot product and squared length are accurate", "statement": "If dot(a,b) is finite then it differs from the exact real dot product by at most g*sum|a_i*b_i| + t with g a few units roundoff (n*u/(1-n*u)) and t a few smallest subnormals.", "quantifier": "all vector pairs with finite result; every value of the scalar type, for both f32 and f64 (all finite values, subnormals, signed zeros, infinities, NaN), every admissible choice of the sign of min/max of equal zeros and every sin_cos library", "why_tests_cant": "The input space (2^64 to 2^1024 combinations) cannot be enumerated; error bounds over all inputs.", "anchors": ["src/vector2.rs: dot", "src/vector3.rs: dot"]}
{"id": "C55", "title": "length and distance are accurate when the square does not under/overflow", "statement": "If the computed squared length d is finite and u*d is at least the smallest subnormal then length(v) differs from the exact Euclidean length by a relative error of a few units roundoff.", "quantifier": "all such vectors and pairs of points; every value of the scalar type, for both f32 and f64 (all finite values, subnormals, signed zeros, infinities, NaN), every admissible choice of the sign of min/max of equal zeros and every sin_cos library", "why_tests_cant": "The input space (2^64 to 2^1024 combinations) cannot be enumerated; error bounds over all inputs.", "anchors": ["src/vector2.rs: length", "src/vector3.rs: length", "src/point2.rs: distance", "src/point3.rs: distance"]}
{"id": "C56", "title": "Matrix-vector and matrix-point products are accurate", "statement": "If the result is finite, each component of M*v, and of M*p for affine M (last row 0..0 1), differs from the exact one by at most g*sum|m_ij*v_j| + t.", "quantifier": "all matrices and vectors with finite result; every value of the scalar type, for both f32 and f64 (all finite values, subnormals, signed zeros, infinities, NaN), every admissible choice of the sign of min/max of equal zeros and every sin_cos library", "why_tests_cant": "The input space (2^64 to 2^1024 combinations) cannot be enumerated; error bounds over all inputs.", "anchors": ["src/transform2.rs: Mul<Vector2>, Mul<Point2>", "src/transform3.rs: Mul<Vector3>, Mul<Point3>"]}
{"id": "C57", "title": "A ray starting inside the box hits it", "statement": "In floating point, if the ray origin is finite and inside the (not inverted) box, and strictly inside on every axis where the direction component is zero, then intersect is Some(s..e) with s == 0 and 0 <= e, whatever the direction (infinities and NaN included).", "quantifier": "all boxes and rays satisfying the hypothesis; every value of the scalar type, for both f32 and f64 (all finite values, subnormals, signed zeros, infinities, NaN), every admissible choice of the sign of min/max of equal zeros and every sin_cos library", "why_tests_cant": "The input space (2^64 to 2^1024 combinations) cannot be enumerated; IEEE corner cases: zero divisors, infinite quotients, NaN.", "anchors": ["src/boundingbox2.rs: intersect (ray)", "src/boundingbox3.rs: intersect (ray)"]}
{"id": "C58", "title": "Ray-box intersection is monotone under box inclusion", "statement": "In floating point, for boxes a contained in b and a ray with finite origin and direction whose origin is on no face plane of b on the axes where the direction component is zero: if the ray hits a with s..e then it hits b with s'..e', s' <= s and e <= e'; so bounding volume hierarchies built with union never lose a hit.", "quantifier": "all such boxes and rays; every value of the scalar type, for both f32 and f64 (all finite values, subnormals, signed zeros, infinities, NaN), every admissible choice of the sign of min/max of equal zeros and every sin_cos library", "why_tests_cant": "The input space (2^64 to 2^1024 combinations) cannot be enumerated; rounding of every quotient.", "anchors": ["src/boundingbox2.rs: intersect (ray), union", "src/boundingbox3.rs: intersect (ray), union"]}
{"id": "C59", "title": "Cross product, ray evaluation and matrix product are accurate", "statement": "If the result is finite, each component of cross(a,b), ray.at(t) and each entry of A*B differs from the exact real value by at most g*(sum of the absolute values of the terms) + t, with g a few units roundoff and t a few smallest subnormals.", "quantifier": "all operands with finite result; every value of the scalar type, for both f32 and f64 (all finite values, subnormals, signed zeros, infinities, NaN), every admissible choice of the sign of min/max of equal zeros and every sin_cos library", "why_tests_cant": "The input space (2^64 to 2^1024 combinations) cannot be enumerated; error bounds over all inputs.", "anchors": ["src/vector3.rs: cross", "src/ray2.rs: at", "src/ray3.rs: at", "src/transform2.rs: Mul", "src/transform3.rs: Mul"]}
{"id": "C60", "title": "Growing a box from points with NaN coordinates", "statement": "Start from empty() and union any non-empty list of points, NaN coordinates included. In each dimension: if the first point's coordinate is not NaN, the box is the tight hull of the non-NaN coordinates (each is inside, both faces equal some coordinate); if it is NaN, the box is -inf..inf in that dimension whatever comes later. FINDING: so with NaN coordinates the result depends on the order of the points.", "quantifier": "all non-empty lists of points, all dimensions; every value of the scalar type, for both f32 and f64 (all finite values, subnormals, signed zeros, infinities, NaN), every admissible choice of the sign of min/max of equal zeros and every sin_cos library and exact arithmetic", "why_tests_cant": "The input space (2^64 to 2^1024 combinations) cannot be enumerated; lists of every length with NaN in every position.", "anchors": ["src/boundingbox2.rs: empty, union (point)", "src/boundingbox3.rs: empty, union (point)"]}
{"id": "C61", "title": "Any history of unions with points and boxes gives the smallest box", "statement": "Starting from empty(), any non-empty sequence of union(point) and union(box) calls with NaN-free points and ordered boxes gives an ordered box that contains everything that was added and is contained in every box that does; order and repetitions in the history do not change the result (up to ==).", "quantifier": "all histories of any length; every value of the scalar type, for both f32 and f64 (all finite values, subnormals, signed zeros, infinities, NaN), every admissible choice of the sign of min/max of equal zeros and every sin_cos library and exact arithmetic", "why_tests_cant": "The input space (2^64 to 2^1024 combinations) cannot be enumerated; all interleavings of point and box unions.", "anchors": ["src/boundingbox2.rs: empty, union", "src/boundingbox3.rs: empty, union"]}
{"id": "C62", "title": "Boxes form a lattice under union and intersect", "statement": "On ordered boxes, with None for the empty meet: intersect is commutative, associative and idempotent with infinite() neutral; absorption holds both ways; a is contained in b iff intersect(a,b) == Some(a) iff union(a,b) == b iff both corners of a are inside b.", "quantifier": "all ordered boxes; every value of the scalar type, for both f32 and f64 (all finite values, subnormals, signed zeros, infinities, NaN), every admissible choice of the sign of min/max of equal zeros and every sin_cos library and exact arithmetic", "why_tests_cant": "The input space (2^64 to 2^1024 combinations) cannot be enumerated; laws over triples of boxes.", "anchors": ["src/boundingbox2.rs: union, intersect, is_inside", "src/boundingbox3.rs: union, intersect, is_inside"]}
{"id": "C63", "title": "A box is the hull of its corners", "statement": "For an ordered box, corner(0), corner(1), ... (4 in 2D, 8 in 3D) never panic, and uniting these points, from empty(), gives the box again.", "quantifier": "all ordered boxes; every value of the scalar type, for both f32 and f64 (all finite values, subnormals, signed zeros, infinities, NaN), every admissible choice of the sign of min/max of equal zeros and every sin_cos library and exact arithmetic; debug and release builds", "why_tests_cant": "The input space (2^64 to 2^1024 combinations) cannot be enumerated; all boxes.", "anchors": ["src/boundingbox2.rs: corner, union (point)", "src/boundingbox3.rs: corner, union (point)"]}
{"id": "C64", "title": "Searching a list with closest, farthest, shortest, longest", "statement": "Fold the free function closest(v, acc, p) over any non-empty list of candidates whose distances to v are not NaN: the result is one of the candidates, its distance is <= every candidate's distance and no candidate is_closer_to v. Dually for farthest, and for shortest/longest over vectors; same for scalars. FINDING: a candidate at NaN distance makes the fold forget every candidate before it (the result is that of the candidates after it, or the NaN candidate itself when it is last).", "quantifier": "all lists of any length, all query points; every value of the scalar type, for both f32 and f64 (all finite values, subnormals, signed zeros, infinities, NaN), every admissible choice of the sign of min/max of equal zeros and every sin_cos library and exact arithmetic", "why_tests_cant": "The input space (2^64 to 2^1024 combinations) cannot be enumerated; lists of every length.", "anchors": ["src/distance.rs: closest, farthest, distance", "src/length.rs: shortest, longest, length", "src/point2.rs: RelativeDistance", "src/point3.rs: RelativeDistance", "src/vector2.rs: RelativeLength", "src/vector3.rs: RelativeLength", "src/scalar.rs: RelativeDistance, RelativeLength"]}
{"id": "C65", "title": "Minimum and maximum of a list of points ignore NaN coordinates", "statement": "Folding the free functions min and max over any non-empty list of points, vectors or scalars gives, in each dimension, a lower and an upper bound of all non-NaN coordinates that is attained by one of them; the result is NaN in a dimension only if every coordinate is NaN there.", "quantifier": "all non-empty lists, all dimensions; every value of the scalar type, for both f32 and f64 (all finite values, subnormals, signed zeros, infinities, NaN), every admissible choice of the sign of min/max of equal zeros and every sin_cos library and exact arithmetic", "why_tests_cant": "The input space (2^64 to 2^1024 combinations) cannot be enumerated; lists of every length with NaN in every position.", "anchors": ["src/minmax.rs: min, max", "src/point2.rs: MinMax", "src/point3.rs: MinMax", "src/vector2.rs: MinMax", "src/vector3.rs: MinMax", "src/scalar.rs: MinMax"]}
{"id": "C66", "title": "Intersecting a ray with a transformed box in object space", "statement": "In exact arithmetic, for a constructible affine transform t, an ordered box b and a ray r with non-zero direction: intersecting b with the ray t.inverse() * r (when it lies in no face plane) gives exactly the range of s >= 0 for which r.at(s) is the image under t of a point of b, and None iff there is no such s. Ray parameters therefore need no conversion between object and world space.", "quantifier": "all affine transforms built through the API, all ordered boxes, all rays, all s >= 0; exact arithmetic", "why_tests_cant": "The input space (2^64 to 2^1024 combinations) cannot be enumerated; all transforms, boxes and rays.", "anchors": ["src/transform2.rs: transform_ray, inverse", "src/transform3.rs: transform_ray, inverse", "src/boundingbox2.rs: intersect (ray)", "src/boundingbox3.rs: intersect (ray)"]}
{"id": "C67", "title": "Axis-preserving transforms commute with the box operations", "statement": "In exact arithmetic, for an affine transform t whose linear part permutes and scales the axes (translations, scalings, reflections, quarter turns and their products) and ordered boxes: is_inside, overlaps and ray intersection give the same answer before and after transforming all arguments by t, and union and intersect commute with transforming. (For other transforms this fails, see C47.)", "quantifier": "all such transforms, ordered boxes, points, rays with non-zero direction; exact arithmetic", "why_tests_cant": "The input space (2^64 to 2^1024 combinations) cannot be enumerated; all transforms, boxes and rays.", "anchors": ["src/transform2.rs: Transform2::transform_bb", "src/transform3.rs: Transform3::transform_bb", "src/boundingbox2.rs: is_inside, union, intersect, overlaps", "src/boundingbox3.rs: is_inside, union, intersect, overlaps"]}
{"id": "C68", "title": "The centre of a transformed box is the transformed centre", "statement": "In exact arithmetic, for every affine transform t (rotations included) and every box b, center(t * b) = t * center(b).", "quantifier": "all affine transforms, all boxes; exact arithmetic", "why_tests_cant": "The input space (2^64 to 2^1024 combinations) cannot be enumerated; all transforms and boxes.", "anchors": ["src/transform2.rs: Transform2::transform_bb", "src/transform3.rs: Transform3::transform_bb", "src/boundingbox2.rs: center", "src/boundingbox3.rs: center"]}
{"id": "C69", "title": "Ray evaluation is monotone in floating point", "statement": "For a finite ray and finite parameters s <= t, each coordinate of ray.at moves in the direction given by the sign of the direction component (at(s) <= at(t) or at(t) <= at(s)), in spite of rounding and overflow. So for any box the set of parameters t with is_inside(ray.at(t)) is an interval: inside at s and at u implies inside at every t between.", "quantifier": "all finite rays, all finite parameters, all boxes; every value of the scalar type, for both f32 and f64 (all finite values, subnormals, signed zeros, infinities, NaN), every admissible choice of the sign of min/max of equal zeros and every sin_cos library and exact arithmetic", "why_tests_cant": "The input space (2^64 to 2^1024 combinations) cannot be enumerated; rounding at every parameter.", "anchors": ["src/ray2.rs: at", "src/ray3.rs: at", "src/boundingbox2.rs: is_inside", "src/boundingbox3.rs: is_inside"]}
{"id": "C70", "title": "Length and distance are monotone in floating point", "statement": "If every component of v is in absolute value <= that of w then length(v) <= length(w), w is not shorter and v not longer. If every coordinate of q lies between those of p and r then distance(p,q) <= distance(p,r) and r is not closer to p than q. For every point q inside a box some corner(i) is at least as far from p, so the largest distance to a box is found at its corners.", "quantifier": "all vectors and points (infinite components included), all boxes, both build profiles; every value of the scalar type, for both f32 and f64 (all finite values, subnormals, signed zeros, infinities, NaN), every admissible choice of the sign of min/max of equal zeros and every sin_cos library and exact arithmetic", "why_tests_cant": "The input space (2^64 to 2^1024 combinations) cannot be enumerated; rounding and overflow of every square and sum.", "anchors": ["src/vector2.rs: length, RelativeLength", "src/vector3.rs: length, RelativeLength", "src/point2.rs: distance, RelativeDistance", "src/point3.rs: distance, RelativeDistance", "src/boundingbox2.rs: corner", "src/boundingbox3.rs: corner"]}
{"id": "C71", "title": "Transforming a bounding box in floating point", "statement": "For an affine transform and finite results, each face of transform(box) differs from the exact face (smaller/larger coordinate of the images of the min and max corners) by at most a few units roundoff times the sum of the magnitudes of the terms, plus a few smallest subnormals. The image of the minimum corner is always inside. FINDING: the image of other points need not be, even for the identity transform: the far corner is recomputed as min + (max - min), which can lose the maximum corner.", "quantifier": "all affine transforms and finite boxes with finite results; every value of the scalar type, for both f32 and f64 (all finite values, subnormals, signed zeros, infinities, NaN), every admissible choice of the sign of min/max of equal zeros and every sin_cos library", "why_tests_cant": "The input space (2^64 to 2^1024 combinations) cannot be enumerated; error bounds over all inputs.", "anchors": ["src/transform2.rs: Transform<&BoundingBox2>", "src/transform3.rs: Transform<&BoundingBox3>"]}
{"id": "C72", "title": "Accuracy of the ray-box test in floating point", "statement": "For an ordered box and a ray whose direction and differences corner - origin are finite, with slack(t) = 3u|t| + min_subnormal: if intersect is Some(s..e), every real t >= 0 at which the exact ray point is in the box satisfies s <= t + slack(t) and t - slack(t) <= e (for finite s, e); every t with s <= t - slack(t) and t + slack(t) <= e is an exact hit; and at every t between s and e the exact point is in the box with each face moved out by 3u*|face - origin| + min_subnormal*|direction|. If it is None (and the ray is not inside a face plane) then any two exact hits t1 <= t2 satisfy t2 - slack(t2) < t1 + slack(t1): only grazing hits are missed; in exact arithmetic none. FINDING: in floating point a ray that exactly touches the box can be reported as a miss, and ray.at(s) need not be inside the box.", "quantifier": "all ordered boxes, all rays in range, all real parameters; every value of the scalar type, for both f32 and f64 (all finite values, subnormals, signed zeros, infinities, NaN), every admissible choice of the sign of min/max of equal zeros and every sin_cos library and exact arithmetic", "why_tests_cant": "The input space (2^64 to 2^1024 combinations) cannot be enumerated; rounding of every quotient, at every parameter.", "anchors": ["src/boundingbox2.rs: intersect (ray)", "src/boundingbox3.rs: intersect (ray)"]}
{"id": "C73", "title": "Coordinates on a binary grid compute exactly", "statement": "When coordinates are multiples of one power of two 2^e (integers, halves, quarters, ...) with numerators small enough (bounds stated per operation, e.g. 2*B^2 < 2^24 for f32 dot products in 2D), floating point gives exactly the mathematical result: sums and differences of points and vectors, dot, cross, is_shorter_than/is_longer_than, is_closer_to/is_farther_from (they decide the exact comparison of lengths/distances), ray.at, matrix*matrix, matrix*vector, affine matrix*point, box extents, diagonal, center, area, surface_area and volume; q + (p - q) == p; translating and translating back (either way round) returns the point; and length() is exact whenever the true length is a multiple of 2^e.", "quantifier": "all grids 2^e with -30 <= e <= 30 and all values on them within the stated bounds; every value of the scalar type, for both f32 and f64 (all finite values, subnormals, signed zeros, infinities, NaN), every admissible choice of the sign of min/max of equal zeros and every sin_cos library", "why_tests_cant": "The input space (2^64 to 2^1024 combinations) cannot be enumerated; all integers in range.", "anchors": ["src/point2.rs", "src/point3.rs", "src/vector2.rs", "src/vector3.rs", "src/ray2.rs", "src/ray3.rs", "src/boundingbox2.rs", "src/boundingbox3.rs", "src/transform2.rs", "src/transform3.rs"]}
{"id": "C74", "title": "Negation passes through every operation", "statement": "For all vectors and points, NaN and infinities included, up to the sign of zero (== or both NaN): -(-v) = v; (-a)+(-b) = -(a+b); a-b = -(b-a); (-a)*s = a*(-s) = -(a*s); (-a)/s = -(a/s), and a/(-s) = -(a/s) for s != 0; dot(-a,b) = dot(a,-b) = -dot(a,b); cross(-a,b) = cross(a,-b) = cross(b,a) = -cross(a,b), and cross(a,a) == 0 unless a component is NaN (an overflowing product); M*(-v) = -(M*v) and (-v)*M = -(v*M); length(-v) = length(v); normalize(-v) = -normalize(v); is_shorter_than/is_longer_than ignore signs; floor(-v) = -ceil(v), ceil(-v) = -floor(v), round, trunc, fract are odd, abs is even; min(-a,-b) = -max(a,b); the box of the negated points is the reflected box, and union with a point, is_inside and extents commute with that reflection; a ray with negated direction at -t is the ray at t.", "quantifier": "all values (finite, infinite, NaN, signed zeros); every value of the scalar type, for both f32 and f64 (all finite values, subnormals, signed zeros, infinities, NaN), every admissible choice of the sign of min/max of equal zeros and every sin_cos library and exact arithmetic", "why_tests_cant": "The input space (2^64 to 2^1024 combinations) cannot be enumerated; all sign patterns and special values.", "anchors": ["src/vector2.rs", "src/vector3.rs", "src/point2.rs", "src/point3.rs", "src/boundingbox2.rs", "src/boundingbox3.rs", "src/ray2.rs", "src/ray3.rs", "src/transform2.rs", "src/transform3.rs"]}
{"id": "C75", "title": "The ray-box test treats all axes and directions alike", "statement": "Mirroring any set of axes (negating those coordinates of the ray origin and direction, and negating and swapping those coordinates of the box) does not change the result of intersect: hit or miss alike, and the same range of parameters. In f32/f64 this holds for every box and ray, also with NaN, infinite or zero direction components. Renaming the axes (permute applied to the box corners, the ray origin and the direction) does not change the result either, although the code handles the axes in a fixed order with early exits.", "quantifier": "all boxes (also unordered), all rays, all sets of axes and all permutations; every value of the scalar type, for both f32 and f64 (all finite values, subnormals, signed zeros, infinities, NaN), every admissible choice of the sign of min/max of equal zeros and every sin_cos library (permutation: also exact arithmetic)", "why_tests_cant": "The input space (2^64 to 2^1024 combinations) cannot be enumerated; all sign combinations of directions, signed zeros and NaN.", "anchors": ["src/boundingbox2.rs: intersect (ray)", "src/boundingbox3.rs: intersect (ray)", "src/point3.rs: permute", "src/vector3.rs: permute"]}
{"id": "C76", "title": "A change of units by a power of two is exact", "statement": "Rescaling coordinates by 2^k (v * c, c * v, v / c with c = 2^k are exact in range) commutes with the geometry bit for bit: sums and differences scale by 2^k, dot and cross by 2^(k+l), length and distance by 2^k, normalize gives equal vectors, is_shorter_than / is_longer_than / is_closer_to / is_farther_from and min/max_dimension give the same answers, ray.at, box extents, diagonal and center scale by 2^k, area and surface_area by 2^(2k), volume by 2^(3k), matrix*vector and affine matrix*point (with the translation rescaled) by 2^k. The ray-box test with positions rescaled by 2^k and direction by 2^l gives hit or miss alike and a range scaled by 2^(k-l): the same range when everything is rescaled alike.", "quantifier": "all k (and l) and all inputs whose coordinates, before and after, are zero or between 2^-a and 2^a in magnitude (a = 32 for f32 and 256 for f64; 21 and 170 for volume and the ray test); every value of the scalar type, for both f32 and f64 (all finite values, subnormals, signed zeros, infinities, NaN), every admissible choice of the sign of min/max of equal zeros and every sin_cos library", "why_tests_cant": "The input space (2^64 to 2^1024 combinations) cannot be enumerated; all values in range and all factors.", "anchors": ["src/vector2.rs", "src/vector3.rs", "src/point2.rs", "src/point3.rs", "src/ray2.rs", "src/ray3.rs", "src/boundingbox2.rs", "src/boundingbox3.rs", "src/transform2.rs", "src/transform3.rs"]}
{"id": "C77", "title": "Cauchy-Schwarz and the triangle inequality for computed lengths", "statement": "With u the unit roundoff, whenever the squared lengths involved neither overflow nor fall below min_subnormal/u: |dot(a,b)| <= (1+17u) length(a) length(b); distance(p,r) <= (1+15u) (distance(p,q) + distance(q,r)); length(a+b) <= (1+12u) (length(a) + length(b)), for the values the functions return; and dot(normalize(a), normalize(b)) is finite and at most 1+20u in magnitude. FINDING: the slack is needed. In f64 each law fails exactly: dot(n,n) > 1 for n = normalize((1,1,1)), so acos of such a dot product is NaN; dot(v,v) > length(v)^2; and for (0,0), (1,1), (4,4) the direct distance exceeds the sum of the two legs.", "quantifier": "all vectors and points whose squared lengths are in range; every value of the scalar type, for both f32 and f64 (all finite values, subnormals, signed zeros, infinities, NaN), every admissible choice of the sign of min/max of equal zeros and every sin_cos library and exact arithmetic (slack 0)", "why_tests_cant": "The input space (2^64 to 2^1024 combinations) cannot be enumerated; all vectors, points and roundings.", "anchors": ["src/vector2.rs: length, normalize, dot, add", "src/vector3.rs: length, normalize, dot, add", "src/point2.rs: distance", "src/point3.rs: distance"]}
{"id": "C78", "title": "Rotations are as accurate as the platform's sin_cos", "statement": "If sin_cos(angle) is within e of the true sine and cosine (e <= 1/128), every component of a rotated vector or point is within h*(|x|+|y|+|z|) + 3 min_subnormal of the exact rotation (Rodrigues' formula for rotate_axis), and for the inverse transform of the rotation by -angle, where h = e + 5u for rotate, rotate_x, rotate_y, rotate_z and h = 2e + 57u for rotate_axis with any axis of in-range length; forth and back returns every coordinate to within 7h (5h in 2D) of the sum of magnitudes; lengths are kept within 6h (3h) relative. rotate_x, rotate_y, rotate_z return the coordinate along their axis unchanged (==), whatever sin_cos returns.", "quantifier": "all angles, all platforms, all axes in range, all vectors and points whose images are finite; every value of the scalar type, for both f32 and f64 (all finite values, subnormals, signed zeros, infinities, NaN), every admissible choice of the sign of min/max of equal zeros and every sin_cos library and exact arithmetic", "why_tests_cant": "The input space (2^64 to 2^1024 combinations) cannot be enumerated; all angles, axes, vectors and every sin_cos implementation of a given accuracy.", "anchors": ["src/transform2.rs: rotate, inverse", "src/transform3.rs: rotate_x, rotate_y, rotate_z, rotate_axis, inverse"]}
{"id": "C79", "title": "Accuracy of a computed matrix inverse", "statement": "Let M be a matrix with entries of size at most B, u the unit roundoff, E the error bound of its determinant: ((1+u)^7 - 1)*per|M| + 6*min_subnormal*(B+1) for 3x3, ((1+u)^11 - 1)*per|M| + min_subnormal*(24B(B+1)+4) for 4x4 (per = the determinant's expansion with all signs +). If |det M| > E and inverse() is Ok of a finite matrix that is not all zero, then M is invertible, and each element (r,c) of the result is within (e + |N|*E)/(|det M| - E) + min_subnormal of the element N of the exact inverse, where e is the rounding error of the cofactor: ((1+u)^3 - 1)*P + 2*min_subnormal for 3x3 and ((1+u)^8 - 1)*P + 6*min_subnormal*(B+1) for 4x4, P being the cofactor's expansion with all signs +. In exact arithmetic the result is the exact inverse.", "quantifier": "all matrices and bounds B with |det M| > E; every value of the scalar type, for both f32 and f64 (all finite values, subnormals, signed zeros, infinities, NaN), every admissible choice of the sign of min/max of equal zeros and every sin_cos library and exact arithmetic; debug and release builds", "why_tests_cant": "The input space (2^64 to 2^1024 combinations) cannot be enumerated; all matrices and roundings.", "anchors": ["src/transform2.rs: Matrix3x3::inverse", "src/transform3.rs: Matrix4x4::inverse"]}
{"id": "C80", "title": "look_at in floating point", "statement": "Let the view direction target - from and the vector up have lengths in range (squares neither overflow nor underflow), let s, the length of the cross product of the two normalized (the sine of their angle), be at least 1024 u, u the unit roundoff, and let the eye not be absurdly far from the origin (up to about 2^59 for f32, 2^507 for f64). Then look_at is Ok, with finite matrices. Its inverse maps the origin exactly to the eye, and the axes to a frame x, y, z that is orthonormal up to 17u, 5u, 45u/s, right-handed, with z within 10u of the exact direction to the target. The transform computes the coordinates in that frame: of vectors within 271u|v|, of points within 640u(|p|+|from|), plus a few min_subnormal. The eye goes to the origin within 424u|from|; the target to (0, 0, distance) within 222u(|target|+|from|); lengths change by at most 360u/s*|v|; up gets an x coordinate of at most 220u/s*|up| and a y coordinate of at least (3/4)s*|up|. |.| is the sum of the sizes of the coordinates, or the length. In exact arithmetic u and min_subnormal are 0.", "quantifier": "all eyes, targets, up vectors with s >= 1024u, all points and vectors whose results do not overflow; every value of the scalar type, for both f32 and f64 (all finite values, subnormals, signed zeros, infinities, NaN), every admissible choice of the sign of min/max of equal zeros and every sin_cos library and exact arithmetic; debug and release builds", "why_tests_cant": "The input space (2^64 to 2^1024 combinations) cannot be enumerated; all parameters and roundings.", "anchors": ["src/transform3.rs: Transform3::look_at, Matrix4x4::inverse_look_at, Matrix4x4::inverse", "src/vector3.rs: Vector3::normalize, CrossProduct"]}
{"id": "C81", "title": "Chains of transforms in floating point", "statement": "Any transform built from identity, translate, rotate, rotate_x/y/z, rotate_axis, scale and scale_uniform with and_then and inverse, in any number and order, stays exactly affine (bottom row 0..0 1) as long as its matrix entries are finite, so the image of a point needs no division and is, per coordinate, the rounded sum of linear part and image of the origin. For a chain of k such transforms: composing the k transforms with and_then gives a matrix whose entries differ from the exact product of the k given matrices by at most ((1+u)^(nk) - 1) times the same product with absolute values (n = 3 in 2D, 4 in 3D, u the unit roundoff), plus the accumulated underflow; its inverse differs likewise from the exact product of the k given inverses in reverse order; the same holds for a point or vector sent through the composed transform, with one more factor, and for a point or vector sent through the k transforms one by one. So the two ways agree up to the two bounds. In exact arithmetic they are equal.", "quantifier": "all finite lists of transforms, by induction on their length; all points and vectors whose results do not overflow; every value of the scalar type, for both f32 and f64 (all finite values, subnormals, signed zeros, infinities, NaN), every admissible choice of the sign of min/max of equal zeros and every sin_cos library and exact arithmetic", "why_tests_cant": "The input space (2^64 to 2^1024 combinations) cannot be enumerated; all chain lengths, matrices and roundings.", "anchors": ["src/transform2.rs: Transform2::and_then, Transform2::inverse, Transform", "src/transform3.rs: Transform3::and_then, Transform3::inverse, Transform"]}
{"id": "C82", "title": "Undoing a transform in floating point", "statement": "Sending a point or vector through an affine transform t and back through t.inverse() gives it back up to stated errors. Per coordinate: translate, at most u((1+u)|p+v| + |p|); scale, at most ((1+u)^3 - 1)|p| plus underflow terms; any affine transform, at most D|p| + ((1+u)^(2n) - 1)|G||F||p| plus underflow terms, where F and G are the matrices of t and of its inverse, |.| takes absolute values, n is 3 in 2D and 4 in 3D, and D is the entry-wise distance of the exact product GF from the identity. D is exactly 0 for translations. For t1.and_then(t2), D is at most D1 + |G1| D2 |F1| plus the rounding of the two matrix products, so the quality of the inverse of any composition follows from that of its parts. For try_from, D is at most the error bound of the computed inverse (C79) times |F|. u is the unit roundoff; in exact arithmetic u and min_subnormal are 0.", "quantifier": "all transforms with finite affine matrices, all points and vectors whose results do not overflow; every value of the scalar type, for both f32 and f64 (all finite values, subnormals, signed zeros, infinities, NaN), every admissible choice of the sign of min/max of equal zeros and every sin_cos library and exact arithmetic", "why_tests_cant": "The input space (2^64 to 2^1024 combinations) cannot be enumerated; all matrices, points and roundings.", "anchors": ["src/transform2.rs: Transform2::inverse, Transform2::translate, Transform2::scale, Transform2::and_then, TryFrom", "src/transform3.rs: Transform3::inverse, Transform3::translate, Transform3::scale, Transform3::and_then, TryFrom"]}
{"id": "C83", "title": "Transforming a ray in floating point", "statement": "In exact arithmetic, transforming a ray and then evaluating it at s equals evaluating at s and then transforming the point (C46). In floating point, for an affine transform with matrix M, a ray with origin o and direction v, and n = 3 in 2D, 4 in 3D, both computed points are, per coordinate, within ((1+u)^(n+2) - 1)(|M||o| + |s||M||v|) plus a few min_subnormal of the exact point M o + s M v, so they differ by at most twice that. |.| takes absolute values entry by entry, u is the unit roundoff.", "quantifier": "all affine transforms, rays and parameters whose results do not overflow; every value of the scalar type, for both f32 and f64 (all finite values, subnormals, signed zeros, infinities, NaN), every admissible choice of the sign of min/max of equal zeros and every sin_cos library and exact arithmetic", "why_tests_cant": "The input space (2^64 to 2^1024 combinations) cannot be enumerated; all matrices, rays, parameters and roundings.", "anchors": ["src/transform2.rs: Transform<&Ray2>, Transform<Point2>", "src/transform3.rs: Transform<&Ray3>, Transform<Point3>", "src/ray2.rs: Ray2::at", "src/ray3.rs: Ray3::at"]}
{"id": "C84", "title": "Algebra of the transform constructors in floating point", "statement": "Laws of the constructors that survive rounding. identity is neutral for and_then: identity.and_then(t) == t == t.and_then(identity). scale(a).and_then(scale(b)) has, per axis, the matrix of scaling by the rounded product b*a, and the inverse matrix of the product of the reciprocals; scale_uniform(s) is scale(s, s, s). If sin_cos(y) is (-sin x, cos x), then rotate(y) == rotate(x).inverse() (also rotate_x, rotate_y, rotate_z); if sin_cos(x) is (0, 1), then rotate(x) == identity. Angles add: if sin_cos is within e of the exact values, rotate(x).and_then(rotate(y)) is, per matrix element and also for the inverse, within 5 e + 6 u of the exact rotation by x + y, u the unit roundoff, and never overflows. rotate_axis about a coordinate axis has exactly the matrix elements of rotate_x, rotate_y or rotate_z except for the 1 on the diagonal, which is within 6 u of 1.", "quantifier": "all finite transforms, factors and angles; all platforms' sin_cos satisfying the stated condition; every value of the scalar type, for both f32 and f64 (all finite values, subnormals, signed zeros, infinities, NaN), every admissible choice of the sign of min/max of equal zeros and every sin_cos library and exact arithmetic", "why_tests_cant": "The input space (2^64 to 2^1024 combinations) cannot be enumerated; all factors, angles, roundings and platform sine and cosine functions.", "anchors": ["src/transform2.rs: Transform2::{identity, and_then, scale, scale_uniform, rotate, inverse}", "src/transform3.rs: Transform3::{identity, and_then, scale, scale_uniform, rotate_x, rotate_y, rotate_z, rotate_axis, inverse}"]}
{"id": "C85", "title": "Accuracy of the measures of a box in floating point", "statement": "For every box whose computed measure is finite (infinite results are overflow): the computed extent is within relative error u (the unit roundoff) of max - min; area within a factor (1+u)^3 - 1 of the exact area, plus min_subnormal; volume within (1+u)^5 - 1 of the exact volume, plus min_subnormal*(depth + 1); surface_area within (1+u)^6 - 1 of the exact surface area, plus 7 min_subnormal; each coordinate of center() within u*|midpoint| + 1.01 u*extent + min_subnormal of the midpoint. In exact arithmetic all are exact.", "quantifier": "all boxes whose results do not overflow; every value of the scalar type, for both f32 and f64 (all finite values, subnormals, signed zeros, infinities, NaN), every admissible choice of the sign of min/max of equal zeros and every sin_cos library and exact arithmetic", "why_tests_cant": "The input space (2^64 to 2^1024 combinations) cannot be enumerated; all boxes and roundings.", "anchors": ["src/boundingbox2.rs: BoundingBox2::{width, height, extent, area, center}", "src/boundingbox3.rs: BoundingBox3::{width, height, depth, extent, surface_area, volume, center}"]}
{"id": "C86", "title": "The points computed from a ray-box hit lie on the box, up to rounding", "statement": "Let an ordered box and a ray (direction and differences corner - origin finite) have intersect = Some(s..e). If s > 0, the ray enters through a face turned towards its origin: there is an axis d with direction component v != 0 such that, for the face of d met first (min if v > 0, max if v < 0), the exact point at s is within w = 3u*|face - origin| + min_subnormal*|v| of the face plane, and the computed coordinate of ray.at(s) within w plus the rounding error ((1+u)^2 - 1)(|origin| + |v s|) + min_subnormal of at. Likewise, if e is finite, the ray leaves through a face turned away. For every parameter t with s <= t <= e each coordinate of the computed ray.at(t) is inside the box with its faces moved out by w plus that rounding error. In exact arithmetic all these errors are 0. u is the unit roundoff.", "quantifier": "all ordered boxes, all rays in range, all parameters of the range; every value of the scalar type, for both f32 and f64 (all finite values, subnormals, signed zeros, infinities, NaN), every admissible choice of the sign of min/max of equal zeros and every sin_cos library and exact arithmetic", "why_tests_cant": "The input space (2^64 to 2^1024 combinations) cannot be enumerated; all boxes, rays, parameters and roundings.", "anchors": ["src/boundingbox2.rs: Intersection<&Ray2>", "src/boundingbox3.rs: Intersection<&Ray3>", "src/ray2.rs: Ray2::at", "src/ray3.rs: Ray3::at"]}
{"id": "C87", "title": "No component exceeds the length; lengths along an axis are exact", "statement": "For every finite vector whose computed squared length is infinite or at least min_subnormal / u, each |component| <= length(), so every component of normalize() (for a positive length) lies in -1..1, with no rounding excess. If in addition all components but one are zero and the squared length is finite, length() equals exactly the absolute value of that component and normalize() equals exactly the axis vector or its negation. Likewise distance(p, q) is never below any computed |q - p| coordinate, and equals it exactly when p and q agree in all other coordinates. The range condition is needed: for some tiny f32 vectors length() < |component| and normalize() has a component > 1. u is the unit roundoff.", "quantifier": "all vectors and point pairs in range; every value of the scalar type, for both f32 and f64 (all finite values, subnormals, signed zeros, infinities, NaN), every admissible choice of the sign of min/max of equal zeros and every sin_cos library and exact arithmetic", "why_tests_cant": "The input space (2^64 to 2^1024 combinations) cannot be enumerated; all vectors, points and roundings.", "anchors": ["src/vector2.rs: Length::length, Vector2::normalize", "src/vector3.rs: Length::length, Vector3::normalize", "src/point2.rs: Distance::distance", "src/point3.rs: Distance::distance"]}
{"id": "C88", "title": "Axis permutations and cameras along an axis are exact", "statement": "If a matrix only permutes and mirrors the axes and translates by a finite vector, try_from succeeds and the transform and its inverse map every finite vector exactly (components permuted and negated), and every finite point with one rounding per coordinate: +-p_s(i) + t_i forwards, +-(p_i - t_i) backwards. If a camera looks along a (positive or negative) axis z and up points along another axis u, squared lengths in range, look_at succeeds; with x the axis u cross z it maps every finite vector exactly to its components along x, u, z, every finite point to the rounded differences to the eye along x, u, z, and the inverse is as exact: eye plus component.", "quantifier": "all eyes, targets and up vectors along the axes (24 orientations), all signed axis permutations with translation, all finite points and vectors; every value of the scalar type, for both f32 and f64 (all finite values, subnormals, signed zeros, infinities, NaN), every admissible choice of the sign of min/max of equal zeros and every sin_cos library and exact arithmetic; debug and release builds", "why_tests_cant": "The input space (2^64 to 2^1024 combinations) cannot be enumerated; all parameters, points and roundings.", "anchors": ["src/transform3.rs: Transform3::look_at, Matrix4x4::inverse_look_at, Matrix4x4::inverse, TryFrom<Matrix4x4>", "src/transform2.rs: Matrix3x3::inverse, TryFrom<Matrix3x3>", "src/vector3.rs: Vector3::normalize, CrossProduct"]}
{"id": "C89", "title": "Magnitudes without overflow; a safe range", "statement": "If the inputs are finite and at most 2^k in size, the results are finite and at most: 2^(k+1) for sums and differences of points and vectors; 2^(i+k+n-1) for a dot product in n dimensions; 2^(i+k+1) for a cross product; 2^(k+1) for length and 2^(k+2) for distance; 2^(i+k+1) for a point along a ray; 2^(i+k+n-1) for a matrix times a vector and 2^(i+k+n) for an affine matrix times a point or a product of matrices; 2^(k+1) for the extents of a box, 2^(k+2) for its centre, 2^(2k+2) for area, 2^(2k+5) for surface area, 2^(3k+3) for volume - whenever the (stated) largest exponent is below the overflow threshold. If all components are at most 2^62 (f32) or 2^510 (f64) and one is at least 2^-62 (2^-510), length is finite, positive and accurate to 5 roundings and normalize gives a finite vector of length 1 up to 8 roundings; the distance of two points whose coordinates are at most 2^62 (2^510) and that differ by at least 2^-62 (2^-510) in one coordinate is accurate to 7 roundings.", "quantifier": "all exponents and all inputs within the stated magnitudes; every value of the scalar type, for both f32 and f64 (all finite values, subnormals, signed zeros, infinities, NaN), every admissible choice of the sign of min/max of equal zeros and every sin_cos library and exact arithmetic", "why_tests_cant": "The input space (2^64 to 2^1024 combinations) cannot be enumerated; all magnitudes, inputs and roundings.", "anchors": ["src/vector2.rs, src/vector3.rs: dot, cross, length, normalize", "src/point2.rs, src/point3.rs: distance", "src/ray2.rs, src/ray3.rs: at", "src/boundingbox2.rs, src/boundingbox3.rs: width, height, depth, area, surface_area, volume, center", "src/transform2.rs, src/transform3.rs: Mul"]}
{"id": "C90", "title": "Where NaN goes and where it comes from", "statement": "A NaN component makes dot products, length, distance and every component of normalize NaN, every component of a cross product except possibly its own, and every coordinate of a transformed point or vector. A NaN entry of a matrix fills its row of a product on the left and its column on the right; inverse then does not fail but returns Ok with every entry NaN. A NaN coordinate of a ray (origin or direction) removes that axis from the ray-box test: the result is the one for a box unbounded along the axis. Finite operands never give NaN in sums and differences of points and vectors, scaling, division by a non-zero scalar, the squared length, length, distance, points along a ray, the extents and the centre of a box.", "quantifier": "all inputs, including NaN and infinities where not excluded; every value of the scalar type, for both f32 and f64 (all finite values, subnormals, signed zeros, infinities, NaN), every admissible choice of the sign of min/max of equal zeros and every sin_cos library and exact arithmetic; debug and release builds", "why_tests_cant": "The input space (2^64 to 2^1024 combinations) cannot be enumerated; all inputs and positions of NaN.", "anchors": ["src/vector2.rs, src/vector3.rs: dot, cross, length, normalize", "src/point2.rs, src/point3.rs: distance", "src/transform2.rs, src/transform3.rs: Mul, inverse, Transform", "src/boundingbox2.rs, src/boundingbox3.rs: Intersection<&Ray>"]}
{"id": "C91", "title": "Every sensible camera works", "statement": "If the coordinates of eye and target are at most 2^57 (f32) or 2^505 (f64), target - eye is at least 2^-62 (2^-510) in one coordinate, the components of up are at most 2^62 (2^510) and one is at least 2^-62 (2^-510), and the sine sg of the angle between up and target - eye (of the given values, in exact arithmetic) is at least 2048 u, u the unit roundoff, then look_at is Ok and neither it nor its inverse overflows on points and vectors with components up to 2^62 (2^510). The eye goes to the origin within 424u|from|, the target to (0, 0, distance) within 222u(|target|+|from|); up gets an x coordinate of at most 228u/sg*|up| and a y coordinate of at least 0.73*sg*|up|; lengths change by at most 372u/sg*|v|; forth and back returns points to within 660u(|p|+|from|) and vectors to within 290u|v|, plus a few min_subnormal. The sine that look_at itself computes with is within 50u of sg. FINDING: the angle condition is needed. With the eye at the origin, target (1,7,3) and up (3,21,9), exactly parallel, look_at in f64 is Ok with a finite transform built from rounding noise, whose x axis is (0,1,0), nearly parallel to its z axis. In exact arithmetic u and min_subnormal are 0 and there are no limits on magnitudes.", "quantifier": "all eyes, targets and up vectors within the stated magnitudes and angle, all points and vectors in range; every value of the scalar type, for both f32 and f64 (all finite values, subnormals, signed zeros, infinities, NaN), every admissible choice of the sign of min/max of equal zeros and every sin_cos library and exact arithmetic; debug and release builds", "why_tests_cant": "The input space (2^64 to 2^1024 combinations) cannot be enumerated; all camera parameters.", "anchors": ["src/transform3.rs: Matrix4x4::inverse_look_at, inverse, Transform3::look_at, Transform, inverse", "src/vector3.rs: normalize, cross", "src/point3.rs: Sub"]}
{"id": "C92", "title": "Clipping a ray by two boxes", "statement": "For ordered boxes a, b (finite or not) and a ray with finite origin and direction that runs in no face plane of a or b: if intersect(a, b) is Some(c), then for every parameter t, t lies in the range intersect(c, ray) exactly when it lies in both ranges intersect(a, ray) and intersect(b, ray); so the range for c is the common part of the two ranges, with no rounding discrepancy (NaN-free, also in floating point). If intersect(a, b) is None, the two ranges share at most one parameter value, and in exact arithmetic no finite one. FINDING: in floating point they can share one: the boxes [0,1] and [1+2^-52,2], seen from -1, are both hit at t = 2.", "quantifier": "all pairs of ordered boxes, all finite rays not running in a face plane, all parameters; every value of the scalar type, for both f32 and f64 (all finite values, subnormals, signed zeros, infinities, NaN), every admissible choice of the sign of min/max of equal zeros and every sin_cos library and exact arithmetic", "why_tests_cant": "The input space (2^64 to 2^1024 combinations) cannot be enumerated; all boxes and rays.", "anchors": ["src/boundingbox2.rs: Intersection<BoundingBox2>, Intersection<Ray2>", "src/boundingbox3.rs: Intersection<BoundingBox3>, Intersection<Ray3>"]}
{"id": "C93", "title": "Searching a bounding volume hierarchy loses nothing", "statement": "For every binary tree of ordered boxes whose inner nodes are bounded by the union of their children, and every ray with finite origin and direction that runs in no face plane of an inner node's bounds: the search that skips every subtree whose bounds the ray misses returns exactly the list of leaves that intersect reports as hit, and the nearest-hit search that also skips subtrees not entered before the best start found so far returns the smallest start of all leaves hit (infinity if none). Rounding does not matter. FINDING: the condition on the face planes is needed: a flat leaf that is itself hit, lying in a face of its parent, is lost.", "quantifier": "all trees of all depths and shapes, all rays; every value of the scalar type, for both f32 and f64 (all finite values, subnormals, signed zeros, infinities, NaN), every admissible choice of the sign of min/max of equal zeros and every sin_cos library and exact arithmetic", "why_tests_cant": "The input space (2^64 to 2^1024 combinations) cannot be enumerated; trees of every depth.", "anchors": ["src/boundingbox2.rs: Union, Intersection<Ray2>", "src/boundingbox3.rs: Union, Intersection<Ray3>"]}
{"id": "C94", "title": "Chains of moves, turns and uniform scalings keep shapes", "statement": "In exact arithmetic, for every transform built by any finite combination of translations, rotations (all four kinds), look_at, uniform scalings, scalings by factors of equal magnitude (mirrors), and_then and inverse, there is one factor k, computed from the parts (product over and_then, reciprocal for inverse), such that: distances between transformed points and lengths of transformed vectors are |k| times the originals, dot products k squared times, the cross product of two images is k times the image of the cross product (so the sign of k says whether handedness is kept); therefore is_closer_to, is_farther_from, is_shorter_than and is_longer_than give the same answers before and after, closest, farthest, shortest and longest commute with the transform, and angles are unchanged. Scaling the axes unevenly is not such a transform.", "quantifier": "all chains of any length, all points and vectors; exact arithmetic", "why_tests_cant": "The input space (2^64 to 2^1024 combinations) cannot be enumerated; every chain.", "anchors": ["src/transform2.rs: Transform2, Transform", "src/transform3.rs: Transform3, Transform", "src/distance.rs", "src/length.rs"]}
{"id": "C95", "title": "Restarting, rescaling and reversing a ray", "statement": "In exact arithmetic, for every ordered box and every ray with a non-zero direction, including rays in face planes: restarting the ray at ray.at(c) with its direction multiplied by k > 0 shifts and rescales the reported range, from s..e to (max(s,c)-c)/k..(e-c)/k, and reports a miss exactly if the original is missed or c > e; turning the ray around at ray.at(e+c), beyond the box, with any speed k reports the same stretch walked backwards, c/k..(c+e-s)/k, if the original ray starts outside (s > 0).", "quantifier": "all ordered boxes, rays, restart distances and factors; exact arithmetic", "why_tests_cant": "The input space (2^64 to 2^1024 combinations) cannot be enumerated; every pair of a ray and a restart.", "anchors": ["src/boundingbox2.rs: Intersection<Ray2>", "src/boundingbox3.rs: Intersection<Ray3>", "src/ray2.rs: at, new", "src/ray3.rs: at, new"]}
{"id": "C96", "title": "Rays that do not move along an axis", "statement": "Along an axis on which the direction is a zero, the origin of the ray lies between the two faces, ahead of them or behind them, where the sign of the zero decides what is ahead (an origin on one face of a slab of non-zero thickness counts as outside). Behind on any axis: intersect reports a miss. Ahead on any axis: a miss, or the range infinity..infinity. A ray that does not move at all is reported as 0..infinity if its origin is between the faces on every axis, and as infinity..infinity if it is ahead on some axis and behind on none. FINDING: so a ray from outside with direction (0,0) is a hit and with (-0,-0) a miss; and a moving ray beside a box that extends to infinity is a hit although ray.at(t) is inside the box for no t.", "quantifier": "all boxes with ordered faces (also infinite ones), all rays with finite origin and a zero direction component; every value of the scalar type, for both f32 and f64 (all finite values, subnormals, signed zeros, infinities, NaN), every admissible choice of the sign of min/max of equal zeros and every sin_cos library and exact arithmetic", "why_tests_cant": "The input space (2^64 to 2^1024 combinations) cannot be enumerated; every ray.", "anchors": ["src/boundingbox2.rs: Intersection<Ray2>", "src/boundingbox3.rs: Intersection<Ray3>"]}
{"id": "C97", "title": "Differences of nearby points are exact", "statement": "If every coordinate of two finite points has the same sign and neither is more than twice the other, the difference q - p is exact: no rounding and no overflow. So p + (q - p) == q, q - (q - p) == p, the ray from p with direction q - p passes at t = 1 exactly through q, and distance is computed from the exact differences (relative error at most 5 roundoffs instead of 7, in the range of C55). For any two finite points the sign of every component of q - p is right and it is zero only if the coordinates are equal; and p + (q - p), if finite, misses q by at most u*(|q| + (1+u)*|q - p|). It can miss: from 1 to 2^-60 and back gives 0.", "quantifier": "all pairs of finite points; every value of the scalar type, for both f32 and f64 (all finite values, subnormals, signed zeros, infinities, NaN), every admissible choice of the sign of min/max of equal zeros and every sin_cos library and exact arithmetic", "why_tests_cant": "The input space (2^64 to 2^1024 combinations) cannot be enumerated; every pair of points.", "anchors": ["src/point2.rs: Add<Vector2>, Sub<Point2>, Sub<Vector2>, distance", "src/point3.rs: Add<Vector3>, Sub<Point3>, Sub<Vector3>, distance", "src/ray2.rs: at", "src/ray3.rs: at"]}
{"id": "C98", "title": "Length and distance comparisons are right unless nearly equal", "statement": "Compared with the true (real-number) lengths: if the squared length of a, enlarged by 9 relative roundoffs and 7 smallest numbers, is below that of b, and the squared length of a does not overflow (that of b may), then a.is_shorter_than(b), b.is_longer_than(a), shortest and longest in either argument order answer correctly. Whatever the lengths, as long as both squares are finite, the vector returned by shortest (longest) is truly the shorter (longer) of the two up to that margin. The same for is_closer_to, is_farther_from, closest and farthest with a margin of 15 roundoffs. Some margin is needed: in f32 (4668, 11595) is shorter than (11553, 4771) but is reported as longer.", "quantifier": "all pairs of vectors and triples of points; every value of the scalar type, for both f32 and f64 (all finite values, subnormals, signed zeros, infinities, NaN), every admissible choice of the sign of min/max of equal zeros and every sin_cos library and exact arithmetic", "why_tests_cant": "The input space (2^64 to 2^1024 combinations) cannot be enumerated; every pair.", "anchors": ["src/vector2.rs: RelativeLength", "src/vector3.rs: RelativeLength", "src/point2.rs: RelativeDistance", "src/point3.rs: RelativeDistance", "src/length.rs: RelativeLength", "src/distance.rs: RelativeDistance"]}
{"id": "C99", "title": "A computed cross product is perpendicular up to rounding", "statement": "If the components of cross(a, b) are finite, it differs from the true cross product by a vector of length at most 4u*|a||b| + 4t (u the unit roundoff, t the smallest positive number), its true dot product with w = a or b is at most 4u*|w||a||b| + 4t*|w|, and the dot product computed with it at most 10u*|w||a||b| + t*(5|w| + 3). cross(v, v) is exactly zero where finite. FINDING: the cross product of two vectors that are not parallel can be exactly zero, so normalizing it gives NaN: f32, e = 2^-12, (1, 1+e, 0) and (1+e, 1+2e, 0). The slack is needed: dot(a, cross(a, b)) need not be zero.", "quantifier": "all pairs of vectors whose cross product does not overflow; every value of the scalar type, for both f32 and f64 (all finite values, subnormals, signed zeros, infinities, NaN), every admissible choice of the sign of min/max of equal zeros and every sin_cos library and exact arithmetic (where the bounds are 0)", "why_tests_cant": "The input space (2^64 to 2^1024 combinations) cannot be enumerated; every pair of vectors.", "anchors": ["src/vector3.rs: CrossProduct, DotProduct", "src/cross.rs: CrossProduct"]}
{"id": "C100", "title": "The algebra over any scalar type that obeys the laws of arithmetic", "statement": "The types are generic: any scalar type can be used. If its operations satisfy the laws of a commutative ring, then the vector, dot, cross product (antisymmetry, perpendicularity, Lagrange and Jacobi identities), point and matrix product laws hold with equality. If moreover division and recip work for the invertible elements, inverse() returns the inverse of every matrix that has one (it is unique and two-sided). If moreover sin^2 + cos^2 = 1, then for every transform built by the constructors, try_from of an affine invertible matrix, and_then and inverse: the inverse undoes it on points and vectors, and_then composes, sums, multiples and rays are respected. look_at succeeds and maps the camera to the origin and its direction to the z axis when the two vectors it normalizes have an invertible length.", "quantifier": "every scalar type with those laws (reals, rationals, dual numbers, rational functions ...), all vectors, points, matrices with an inverse, and all finite histories of transform constructions", "why_tests_cant": "Tests run one scalar type; the claim ranges over every scalar type, every value of it and every history of constructions.", "anchors": ["src/vector3.rs: Vector3", "src/transform2.rs: Transform2, Matrix3x3", "src/transform3.rs: Transform3, Matrix4x4, look_at", "src/scalar.rs: Scalar"]}
{"id": "C101", "title": "Directions in floating point", "statement": "For vectors whose squared length is in range (C24): length(v*s) is |s|*length(v) to within 12u relative; the components of normalize(v*s) are those of normalize(v) (negated for s < 0) to within 17u relative plus u^2; normalize(normalize(v)) is finite and within 16u relative (plus one smallest subnormal) of normalize(v); dot(normalize(a), normalize(b)) is finite and within 18u of the true cosine of the angle between a and b. Slack is needed: in f64 normalize is not idempotent on (1,1), and normalize((1,1)*3) differs from normalize((1,1)).", "quantifier": "all such vectors, pairs of vectors and all factors; every value of the scalar type, for both f32 and f64 (all finite values, subnormals, signed zeros, infinities, NaN), every admissible choice of the sign of min/max of equal zeros and every sin_cos library and exact arithmetic (where the bounds are 0)", "why_tests_cant": "The input space (2^64 to 2^1024 combinations) cannot be enumerated; every vector and factor.", "anchors": ["src/vector2.rs: Vector2::normalize, length", "src/vector3.rs: Vector3::normalize, length", "src/length.rs: Length"]}
{"id": "C102", "title": "Cutting boxes by planes and walking a kd-tree", "statement": "Cutting an ordered box by an axis-aligned plane (assigning one coordinate of one corner) loses and adds nothing along a ray: the parameters at which the ray is in the box are exactly those at which it is in one of the halves, also in floating point; the half the ray comes from is passed first, and a ray parallel to the cut has finite parameters in one half only. So a recursive front-to-back walk over the cells of a kd-tree that skips missed boxes visits exactly the cells hit, each once, in order, and covers the whole range of the root box. Exception: a ray running in a cutting plane through the interior of the box is in neither half (0/0).", "quantifier": "all ordered boxes (infinite ones included), all cuts through them, all kd-trees of any depth, all finite rays that run in no face or cutting plane; every value of the scalar type, for both f32 and f64 (all finite values, subnormals, signed zeros, infinities, NaN), every admissible choice of the sign of min/max of equal zeros and every sin_cos library and exact arithmetic", "why_tests_cant": "The input space (2^64 to 2^1024 combinations) cannot be enumerated; every tree, box and ray.", "anchors": ["src/boundingbox2.rs: Intersection<&Ray2>", "src/boundingbox3.rs: Intersection<&Ray3>", "src/point3.rs: IndexMut"]}
{"id": "C103", "title": "The nearest point of a box", "statement": "max(b.min, min(p, b.max)) clamps a point to an ordered box: the result is always inside the box (also if p has NaN coordinates), it equals p exactly if p is inside, no point of the box is closer to p in the computed distance, is_closer_to or is_farther_from (no rounding slack), and in exact arithmetic it is the only nearest point. Clamping brings no two points farther apart (computed distances), and clamping to two overlapping boxes in turn is clamping to their intersection.", "quantifier": "all ordered boxes (infinite ones included) and all points (finite ones for the distances, and a box that contains a finite point for the contraction; no NaN for the intersection); every value of the scalar type, for both f32 and f64 (all finite values, subnormals, signed zeros, infinities, NaN), every admissible choice of the sign of min/max of equal zeros and every sin_cos library and exact arithmetic", "why_tests_cant": "The input space (2^64 to 2^1024 combinations) cannot be enumerated; every box and point.", "anchors": ["src/minmax.rs: min, max", "src/point2.rs: Point2, Distance, RelativeDistance", "src/point3.rs: Point3, Distance, RelativeDistance", "src/boundingbox3.rs: is_inside"]}
{"id": "C104", "title": "Nearest-neighbour search loses nothing", "statement": "For every binary tree of points whose inner nodes are bounded by the union of their children, every finite query point and every start candidate: the search that skips a subtree whenever the clamp of the query to the subtree's box is not closer than the best point so far returns one of the points (or the candidate), and none of them is closer, neither by the computed distance nor by is_closer_to. Rounding, underflow and overflow do not matter.", "quantifier": "all trees of points without NaN coordinates (infinite ones allowed), of any size and shape, all finite queries; every value of the scalar type, for both f32 and f64 (all finite values, subnormals, signed zeros, infinities, NaN), every admissible choice of the sign of min/max of equal zeros and every sin_cos library and exact arithmetic", "why_tests_cant": "The input space (2^64 to 2^1024 combinations) cannot be enumerated; every tree and query.", "anchors": ["src/point2.rs: RelativeDistance", "src/point3.rs: RelativeDistance", "src/boundingbox2.rs: Union", "src/boundingbox3.rs: Union"]}
{"id": "C105", "title": "The extreme corners of a box", "statement": "Over the points of a box, the computed dot product of any direction v with the point's position is smallest at the corner picked by the signs of -v and largest at the corner picked by the signs of v (bit i of the corner index set if the component is not negative), with no rounding slack; if it is finite at these two corners it is finite everywhere in the box. This is the culling test against a plane with two corners instead of eight.", "quantifier": "all boxes, directions and finite points inside; both build profiles; every value of the scalar type, for both f32 and f64 (all finite values, subnormals, signed zeros, infinities, NaN), every admissible choice of the sign of min/max of equal zeros and every sin_cos library and exact arithmetic", "why_tests_cant": "The input space (2^64 to 2^1024 combinations) cannot be enumerated; every box, direction and point.", "anchors": ["src/boundingbox2.rs: corner, is_inside", "src/boundingbox3.rs: corner, is_inside", "src/vector2.rs: DotProduct, From<Point2>", "src/vector3.rs: DotProduct, From<Point3>"]}
{"id": "C106", "title": "The bounding box of the transformed corners", "statement": "For an affine transform, a finite box and corners whose images are finite: the bounding box grown by union from empty() over the images of all corners contains the image of every point of the box, exactly as computed, with no rounding slack, also in floating point; and every box that contains the images of all points of the box contains it. So a caller who needs a safe bound gets one this way, which transforming the box itself does not give (C47, C71).", "quantifier": "all affine matrices (singular ones included), all finite boxes with finite images of the corners, all points inside; both build profiles; every value of the scalar type, for both f32 and f64 (all finite values, subnormals, signed zeros, infinities, NaN), every admissible choice of the sign of min/max of equal zeros and every sin_cos library and exact arithmetic", "why_tests_cant": "The input space (2^64 to 2^1024 combinations) cannot be enumerated; every transform, box and point.", "anchors": ["src/boundingbox2.rs: corner, Union<Point2>, empty", "src/boundingbox3.rs: corner, Union<Point3>, empty", "src/transform2.rs: transform point", "src/transform3.rs: transform point"]}
{"id": "C107", "title": "Quadtrees and octrees", "statement": "Let m be a point inside a box, for instance its center. A point is in the box exactly if it is in one of the sub-boxes new(corner(i), m); comparing its coordinates with those of m gives the index of one that contains it; different sub-boxes share only points on the planes through m; the union of opposite ones is the whole box. The parameters at which a finite ray that runs in no face plane and in no plane through m is in the box are exactly those at which it is in a sub-box. Dividing recursively at the centers, the cell found for a point at any depth contains it, lies in the box and can be divided further (finite box, extents do not overflow). In exact arithmetic areas and volumes add up and every level halves the extents. Exception: a ray along an axis through the center hits the box and none of the sub-boxes (0/0).", "quantifier": "all boxes, dividing points, points, rays and depths; both build profiles; every value of the scalar type, for both f32 and f64 (all finite values, subnormals, signed zeros, infinities, NaN), every admissible choice of the sign of min/max of equal zeros and every sin_cos library and exact arithmetic", "why_tests_cant": "The input space (2^64 to 2^1024 combinations) cannot be enumerated; every box, point, ray and depth.", "anchors": ["src/boundingbox2.rs: corner, center, new, is_inside, intersect", "src/boundingbox3.rs: corner, center, new, is_inside, intersect"]}
{"id": "C108", "title": "Balls and boxes", "statement": "In the computed distances, with no rounding slack: a ball of radius r around c contains a box exactly if it contains the corners of the box, and meets it exactly if it contains the clamp of c to the box (C103). In exact arithmetic new(c - (r,r,r), c + (r,r,r)) is the smallest box that contains the ball. FINDING: in floating point it can miss a point q with distance(c, q) == r; a point with distance(c, q) <= r lies outside each face by at most u*(|c_d -+ r| + 2r) (u the unit roundoff, range of C87).", "quantifier": "all ordered boxes (infinite ones included), finite centers, all radii; both build profiles; every value of the scalar type, for both f32 and f64 (all finite values, subnormals, signed zeros, infinities, NaN), every admissible choice of the sign of min/max of equal zeros and every sin_cos library and exact arithmetic", "why_tests_cant": "The input space (2^64 to 2^1024 combinations) cannot be enumerated; every box, center and radius.", "anchors": ["src/point2.rs: Distance, Sub<Vector2>, Add<Vector2>", "src/point3.rs: Distance", "src/boundingbox2.rs: corner, new, is_inside", "src/boundingbox3.rs: corner, new, is_inside"]}
{"id": "C109", "title": "Range search loses nothing", "statement": "For every binary tree of points whose inner nodes are bounded by the union of their children, every finite center and every radius: the search that skips a subtree whose box is out of reach (clamp of the center farther than r), and takes one whose box has all corners within r without looking further, returns exactly the points of the tree with distance(q, p) <= r, each as often as it occurs and in the order of the tree. Rounding and overflow do not matter.", "quantifier": "all trees of points without NaN coordinates (infinite ones allowed), of any size and shape, all finite centers, all radii (NaN and negative ones included); both build profiles; every value of the scalar type, for both f32 and f64 (all finite values, subnormals, signed zeros, infinities, NaN), every admissible choice of the sign of min/max of equal zeros and every sin_cos library and exact arithmetic", "why_tests_cant": "The input space (2^64 to 2^1024 combinations) cannot be enumerated; every tree, center and radius.", "anchors": ["src/point2.rs: Distance", "src/point3.rs: Distance", "src/boundingbox2.rs: Union, corner", "src/boundingbox3.rs: Union, corner"]}
{"id": "C110", "title": "Snapping boxes to the integer grid", "statement": "snap(b) := new(min.floor(), max.ceil()) has integral (or infinite) corners, contains b, and is inside every box with integral corners that contains b. Snapping twice changes nothing, snapping is monotone, snap(union(a,b)) is union(snap(a), snap(b)), and overlapping boxes stay overlapping. A point of b rounded with floor, ceil, round or trunc lies in snap(b). Each finite face moves outward by less than 1 (real difference). new(p.floor(), p.ceil()) contains p, is inside every box with integral corners that contains p, and along each axis its real extent is 0 if the coordinate is an integer and 1 otherwise.", "quantifier": "all ordered boxes (infinite ones included), all points inside them, all finite points for the cell; every value of the scalar type, for both f32 and f64 (all finite values, subnormals, signed zeros, infinities, NaN), every admissible choice of the sign of min/max of equal zeros and every sin_cos library and exact arithmetic", "why_tests_cant": "The input space (2^64 to 2^1024 combinations) cannot be enumerated; every box and point.", "anchors": ["src/point2.rs: floor, ceil, round, trunc", "src/point3.rs: floor, ceil, round, trunc", "src/boundingbox2.rs: new, is_inside, union, overlaps", "src/boundingbox3.rs: new, is_inside, union, overlaps"]}
{"id": "C111", "title": "Moving boxes", "statement": "moved(b,v,t) := new(min + v*t, max + v*t) is ordered and contains ray.at(t) of every point of b (ray with direction v). swept(b,v,s,t) := union(moved(b,v,s), moved(b,v,t)) contains moved(b,v,u) for every s <= u <= t, so the computed path of every point of b stays inside it and every box that moved(b,v,u) overlaps also overlaps it; it is the smallest box containing both end positions. All this holds for computed values, with rounding and overflow. In exact arithmetic moved(b,v,t) overlaps c exactly if the point 0 + v*t is inside new(c.min - b.max, c.max - b.min), and intersect_ray of that box with the ray from 0 along v gives exactly the first and last time of contact (ray off the face planes as in C16). FINDING: in floating point the two tests can disagree.", "quantifier": "all ordered boxes with finite corners, all points in them, all finite velocities and times (overflow to infinity included), all ordered c; every value of the scalar type, for both f32 and f64 (all finite values, subnormals, signed zeros, infinities, NaN), every admissible choice of the sign of min/max of equal zeros and every sin_cos library and exact arithmetic", "why_tests_cant": "The input space (2^64 to 2^1024 combinations) cannot be enumerated; every box, velocity and time.", "anchors": ["src/ray2.rs: at", "src/ray3.rs: at", "src/point2.rs: Add<Vector2>, Sub<Point2>", "src/boundingbox2.rs: new, union, overlaps, is_inside, intersect_ray", "src/boundingbox3.rs: new, union, overlaps, is_inside, intersect_ray"]}
{"id": "C112", "title": "Boxes against half-spaces", "statement": "For half-spaces { p : dot(n, p) <= k } in computed values, with no rounding slack: (1) a box is thrown away if for one half-space its corner picked by the signs of -n is outside, and then none of its points is in all the half-spaces; (2) it is taken as a whole if for every half-space its corner picked by the signs of n is inside, and then all its points are in all of them. Test (2) is exact, and test (1) is exact for a single half-space. (3) For every binary tree of points bounded by unions, the search that throws away and takes whole subtrees by these two tests returns exactly the points of the tree in all the half-spaces, in the order of the tree, each as often as it occurs.", "quantifier": "all lists of half-spaces, all boxes, all trees of finite points of any size and shape, provided the dot products of the normals with the corners of the box are finite (for exactness: ordered boxes with finite corners, k not NaN); both build profiles; every value of the scalar type, for both f32 and f64 (all finite values, subnormals, signed zeros, infinities, NaN), every admissible choice of the sign of min/max of equal zeros and every sin_cos library and exact arithmetic", "why_tests_cant": "The input space (2^64 to 2^1024 combinations) cannot be enumerated; every box, half-space and tree.", "anchors": ["src/vector2.rs: dot, Neg", "src/vector3.rs: dot, Neg", "src/boundingbox2.rs: corner, is_inside, Union", "src/boundingbox3.rs: corner, is_inside, Union"]}
{"id": "C113", "title": "Sweep and prune", "statement": "All overlapping pairs of a list of boxes can be found by sorting the boxes by their lower faces along any one axis and comparing each box only with the following ones that start no later than it ends: the sweep of a sorted list returns exactly the pairs of boxes at different positions for which overlaps holds, in order. For a list in any order, sorting it (insertion sort by the computed order of the lower faces) keeps all boxes, and sweeping it finds each overlapping pair once and no other, whatever axis is chosen.", "quantifier": "all lists of boxes of any length, ordered or not (for sorting: no NaN in the lower faces along the axis), all axes; every value of the scalar type, for both f32 and f64 (all finite values, subnormals, signed zeros, infinities, NaN), every admissible choice of the sign of min/max of equal zeros and every sin_cos library and exact arithmetic", "why_tests_cant": "The input space (2^64 to 2^1024 combinations) cannot be enumerated; every list of boxes.", "anchors": ["src/boundingbox2.rs: overlaps", "src/boundingbox3.rs: overlaps"]}
{"id": "C114", "title": "Points in the cells of a uniform grid", "statement": "key(p) := (p / h).floor(), cells(b) := new(key(b.min), key(b.max)) for a finite spacing h > 0. In computed values, with no rounding slack: the cell of a point inside b is inside cells(b) and has integral (or infinite) coordinates; cells(b) is ordered with integral corners, grows with b, and the cell ranges of overlapping boxes overlap; so a query that looks only at the points whose cell is inside cells(b) returns exactly the points of the list inside b. Two points whose real coordinates along an axis are at most h apart lie in the same or in adjacent cells along it, in exact arithmetic and, up to 2^22 cells from 0, also with the rounding of the division; two points in the same cell are less than h (exact arithmetic) or 2h (floating point) apart. FINDING: distance(p, q) <= h, computed, is not enough: such points can be 2 cells apart.", "quantifier": "all finite spacings h > 0, all ordered boxes (infinite ones included), all points inside them, all lists of points; every value of the scalar type, for both f32 and f64 (all finite values, subnormals, signed zeros, infinities, NaN), every admissible choice of the sign of min/max of equal zeros and every sin_cos library and exact arithmetic", "why_tests_cant": "The input space (2^64 to 2^1024 combinations) cannot be enumerated; every spacing, box and point.", "anchors": ["src/point2.rs: Div<S>, floor, Distance", "src/point3.rs: Div<S>, floor", "src/boundingbox2.rs: new, is_inside, overlaps", "src/boundingbox3.rs: new, is_inside, overlaps"]}
{"id": "C115", "title": "A tree of boxes under any history of insertions and removals", "statement": "Take a binary tree of numbered boxes with stored bounds. Inserting a box grows the bounds on the way down with union (any rule picks the child, for instance the smaller computed area), removing a number deletes its boxes and recomputes the bounds above by union. After any history of insertions and removals, starting from nothing: (1) the tree stores exactly the boxes inserted and not removed since, each as often as it was inserted; (2) the bounds stored at the root are ordered and the smallest box that contains all of them; (3) a search that skips every subtree whose bounds do not have a property finds exactly the stored boxes that have it, for every property that larger boxes inherit, in particular 'overlaps q' and 'contains p'.", "quantifier": "all histories of any length, all ordered boxes (infinite ones included), all rules for choosing the child, all query boxes and points (NaN included); every value of the scalar type, for both f32 and f64 (all finite values, subnormals, signed zeros, infinities, NaN), every admissible choice of the sign of min/max of equal zeros and every sin_cos library and exact arithmetic", "why_tests_cant": "The input space (2^64 to 2^1024 combinations) cannot be enumerated; every history.", "anchors": ["src/boundingbox2.rs: Union, overlaps, is_inside", "src/boundingbox3.rs: Union, overlaps, is_inside"]}
{"id": "C116", "title": "Projective transforms in front of the camera", "statement": "In exact arithmetic, for any matrix (also one whose last row is not 0 .. 0 1, such as a perspective projection): (1) if the weights of p and q are positive, the points of the segment from p to q go to the segment between the images, the point p + (q - p) s to the parameter s w(q) / ((1 - s) w(p) + s w(q)), which lies in 0..1; (2) a point farther along the segment stays at least as far from the image of p; (3) if the weights of all corners of a box are positive, the box grown from the transformed corners contains the image of every point of the box, and it is the smallest such box, so when it does not overlap a box v, no point of the box is seen in v (frustum culling); (4) the positive weights are needed: for a box that reaches behind the eye a point in front of the eye leaves the box of the transformed corners.", "quantifier": "all real matrices, points, finite boxes and parameters in 0..1; all visible boxes v, infinite ones included; exact arithmetic", "why_tests_cant": "The input space (2^64 to 2^1024 combinations) cannot be enumerated; every matrix and every point of a box.", "anchors": ["src/transform2.rs: Mul<Point2> for Matrix3x3, transform", "src/transform3.rs: Mul<Point3> for Matrix4x4, transform", "src/boundingbox2.rs: union, corner, overlaps, is_inside", "src/boundingbox3.rs: union, corner, overlaps, is_inside"]}
{"id": "C117", "title": "Searching a tree of balls", "statement": "Take a binary tree of points whose inner nodes store a centre and a radius at least as large as every computed distance from the centre to the points below. A search from q within R that skips every node with slack * (R + radius) < distance(q, centre) returns exactly the points with distance(q, p) <= R, in the order of the tree, and the search for the least distance that skips in the same way with the best distance so far returns the least of all computed distances, if slack is at least 1 + 20 u (u the unit roundoff, for example 1 + 2^-48 in f64) and no squared distance involved under- or overflows (coinciding points are allowed). In exact arithmetic slack = 1 is enough. FINDING: in f64 it is not: without the slack the search loses points, because the computed distances violate the triangle inequality.", "quantifier": "all trees of any shape and size, all centres, radii and points, all q and R (infinite and NaN included); every value of the scalar type, for both f32 and f64 (all finite values, subnormals, signed zeros, infinities, NaN), every admissible choice of the sign of min/max of equal zeros and every sin_cos library and exact arithmetic", "why_tests_cant": "The input space (2^64 to 2^1024 combinations) cannot be enumerated; every tree and every rounding.", "anchors": ["src/point2.rs: distance, Sub", "src/point3.rs: distance, Sub", "src/vector2.rs: length", "src/vector3.rs: length"]}
{"id": "C118", "title": "Scene graphs: casting, picking, flattening", "statement": "Take a scene graph: identified boxes in their own coordinates, groups of scenes, and scenes moved by a transform; an object covers a point p if p, after undoing the moves on the way down, lies in its box. A caster that hands the ray down through the inverse transforms and calls intersect_ray at the leaves reports only parameters x >= 0 at which the reported object covers at(x), and for every covered at(y) with y >= 0 reports that object at some x <= y; so the least reported parameter is the first hit of the whole scene, and nothing is reported iff the ray meets nothing. Picking a point through the inverse transforms returns exactly the objects that cover it. Flattening the graph with and_then into one transform per box keeps what is covered and gives the same list of hits, in the same order, by one inverse transform per box.", "quantifier": "all scene graphs of any depth and width, all affine transforms built by the API, all ordered boxes, all rays with a nonzero direction that do not run inside the plane of a face, all points; exact arithmetic", "why_tests_cant": "The input space (2^64 to 2^1024 combinations) cannot be enumerated; every graph, every transform and every ray.", "anchors": ["src/transform2.rs: Transform<Ray2>, Transform<Point2>, inverse, and_then", "src/transform3.rs: Transform<Ray3>, Transform<Point3>, inverse, and_then", "src/boundingbox2.rs: intersect_ray, is_inside", "src/boundingbox3.rs: intersect_ray, is_inside"]}
{"id": "C119", "title": "The ball around a box", "statement": "The ball around center() with radius |diagonal()| / 2 contains every point of the box, and every corner lies exactly on its surface. It is the only smallest one: a ball of any centre and radius that contains the corners has at least this radius, and if the radius is equal then the centre is center(). So boxes whose balls are apart (the distance of the centres exceeds the sum of the radii) do not overlap, and a point outside the ball is not inside the box.", "quantifier": "all ordered boxes (for the corners and for minimality all boxes), all points, all balls; exact arithmetic", "why_tests_cant": "The input space (2^64 to 2^1024 combinations) cannot be enumerated; every box, every point and every competing ball.", "anchors": ["src/boundingbox2.rs: center, diagonal, corner, overlaps, is_inside", "src/boundingbox3.rs: center, diagonal, corner, overlaps, is_inside", "src/point2.rs: distance", "src/point3.rs: distance"]}
{"id": "C120", "title": "The part of a ray inside a box", "statement": "If intersect_ray returns (s, e), the distance from at(s) to at(e) is (e - s) * |direction| and at most |diagonal()|; the distance from the origin to at(s) is s * |direction|, no point of the ray inside the box is nearer to the origin than at(s) and none is farther than at(e); s = 0 exactly if the origin is inside the box. Marching from s to e in n equal steps stays inside the box, starts at at(s), ends at at(e), and n times the length of one step is at most |diagonal()|. If intersect_ray returns None, the origin is not inside.", "quantifier": "all ordered boxes, all rays with a nonzero direction that do not run inside the plane of a face, all numbers of steps; exact arithmetic", "why_tests_cant": "The input space (2^64 to 2^1024 combinations) cannot be enumerated; every box, every ray and every number of steps.", "anchors": ["src/boundingbox2.rs: Intersection<&Ray2>, diagonal, is_inside", "src/boundingbox3.rs: Intersection<&Ray3>, diagonal, is_inside", "src/ray2.rs: at", "src/ray3.rs: at", "src/point2.rs: distance", "src/point3.rs: distance"]}
{"id": "C121", "title": "Projections, reflections and the nearest point of a ray", "statement": "With the formulas a client writes from dot, * and -: the projection of v on n leaves a rest perpendicular to n, the squared lengths add up, projecting twice changes nothing and a projection is never longer than v. The mirror image of v in the plane with normal n (of any length) gives v back when mirrored again, keeps all dot products and lengths, reverses n and fixes the plane. The point of a line at dot(p - origin, direction) / dot(direction, direction) is nearer to p than every other point of the line, and the difference is perpendicular to the direction; clamping the parameter at 0 gives the nearest point of the ray; in 3D the distance times |direction| is |cross(p - origin, direction)|.", "quantifier": "all vectors, points and rays with a nonzero normal or direction; exact arithmetic", "why_tests_cant": "The input space (2^64 to 2^1024 combinations) cannot be enumerated; every vector, point and parameter.", "anchors": ["src/vector2.rs: dot, length, Mul, Sub, Neg", "src/vector3.rs: dot, cross, length, Mul, Sub, Neg", "src/ray2.rs: at", "src/ray3.rs: at", "src/point2.rs: Sub, distance", "src/point3.rs: Sub, distance"]}
{"id": "C122", "title": "Intersecting a ray with a triangle", "statement": "The usual ray-triangle function a client writes from cross, dot and point differences (Moeller-Trumbore) reports (t, u, v) only if t, u, v >= 0, u + v <= 1 and at(t) is the point a + u (b - a) + v (c - a); unless the direction is perpendicular to the triangle's normal it reports every such hit, with exactly its t, u and v (so the hit is unique); otherwise it reports nothing. A hit lies in the bounding box new(a, b) united with c, so a test with intersect_ray of that box in front of the triangle test loses nothing, for rays that do not run inside the plane of a face.", "quantifier": "all rays and all triangles (degenerate ones included); exact arithmetic", "why_tests_cant": "The input space (2^64 to 2^1024 combinations) cannot be enumerated; every ray and every triangle.", "anchors": ["src/vector3.rs: dot, cross", "src/point3.rs: Sub", "src/ray3.rs: at", "src/boundingbox3.rs: new, Union<&Point3>, is_inside, Intersection<&Ray3>"]}
{"id": "C123", "title": "Intersecting a ray with a ball", "statement": "The usual ray-ball function a client writes with dot and the quadratic formula reports, like intersect_ray for boxes, a range (s, e) with 0 <= s <= e such that for t >= 0 distance(centre, at(t)) <= radius exactly if s <= t <= e, and reports None only if no t >= 0 reaches the ball. So s is the first contact, s = 0 if the origin is inside, and touching rays (s = e) are found; the direction need not be a unit vector.", "quantifier": "all rays with a nonzero direction, all centres and all radii >= 0 (zero included); exact arithmetic", "why_tests_cant": "The input space (2^64 to 2^1024 combinations) cannot be enumerated; every ray and every ball.", "anchors": ["src/vector2.rs: dot", "src/vector3.rs: dot", "src/point2.rs: Sub, distance", "src/point3.rs: Sub, distance", "src/ray2.rs: at", "src/ray3.rs: at"]}
{"id": "C124", "title": "Transforming about a pivot point", "statement": "translate(origin - c).and_then(t).and_then(translate(c - origin)), the usual way to turn or scale about a point c, sends p to t(p - c) + c and vectors where t sends them. If t keeps the origin then c stays, p goes to c plus the transformed vector p - c, and for turns and uniform scalings the distance to c is multiplied by |factor|. About one point, doing t then u is the same as t.and_then(u) about it, and inverse() is t.inverse() about it; in 2D angles add and the inverse turns back. A proper rotation in 2D keeps no point but c; a proper rotate_axis about c keeps exactly the points at(s) of the line through c along the axis.", "quantifier": "all affine transforms built from the constructors, try_from on affine matrices, and_then and inverse; all pivots, points, vectors, angles, nonzero axes; exact arithmetic", "why_tests_cant": "The input space (2^64 to 2^1024 combinations) cannot be enumerated; every transform, pivot and point.", "anchors": ["src/transform2.rs: translate, rotate, and_then, inverse, transform_point, transform_vector", "src/transform3.rs: translate, rotate_axis, and_then, inverse, transform_point, transform_vector", "src/point2.rs: Sub, distance", "src/point3.rs: Sub, distance", "src/ray3.rs: at"]}
