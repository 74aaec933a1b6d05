{"id": "C01", "title": "Matrix product is the matrix product", "statement": "For every supported size n in {2..6} and all matrices A,B,C over a commutative ring, entry (i,j) of A*B is the sum over k of A[(i,k)]*B[(k,j)]; consequently * is associative, distributes over + and -, and identity() is a two-sided unit, zeros() a two-sided zero.", "quantifier": "all matrices of every size 2..6 over every commutative ring (ideal reals, unbounded integers, wrapping integers)", "why_tests_cant": "the five products are hand-unrolled with up to 216 products each; a transposed index in one term is only seen by inputs that make that term non-zero and distinct; associativity quantifies over triples of matrices", "anchors": ["src/matrix2x2.rs:Mul", "src/matrix3x3.rs:Mul", "src/matrix4x4.rs:Mul", "src/matrix5x5.rs:Mul", "src/matrix6x6.rs:Mul"]}
{"id": "C02", "title": "Matrix times vector is the linear action", "statement": "For every size, entry i of A*v is the sum over k of A[(i,k)]*v[k]; so (A*B)*v = A*(B*v), A*(u+v)=A*u+A*v, A*(v*s)=(A*v)*s and identity()*v = v.", "quantifier": "all matrices, vectors and scalars of every size 2..6 over every commutative ring", "why_tests_cant": "finitely many numeric vectors cannot establish linearity or compatibility with the product", "anchors": ["src/matrix2x2.rs:Mul<V2>", "src/matrix3x3.rs:Mul<V3>", "src/matrix4x4.rs:Mul<V4>", "src/matrix5x5.rs:Mul<V5>", "src/matrix6x6.rs:Mul<V6>"]}
{"id": "C03", "title": "Vector times matrix is the row-vector product", "statement": "For every size n, v*M is the row-vector product: entry j is the sum over k of v[k]*M[(k,j)], i.e. v*M = M.transpose()*v, and v*(A*B) = (v*A)*B.", "quantifier": "all vectors and matrices of every size 2..6", "why_tests_cant": "the repository's tests use one matrix per size and none at all for size 3; on symmetric matrices the row- and column-products coincide so a test may pass by accident", "anchors": ["src/vector2.rs:Mul<M22>", "src/vector3.rs:Mul<M33>", "src/vector4.rs:Mul<M44>", "src/vector5.rs:Mul<M55>", "src/vector6.rs:Mul<M66>"]}
{"id": "C04", "title": "det() is the determinant", "statement": "For every size n in {2..6}, det() equals the determinant given by cofactor (Laplace) expansion, for all entries, as a polynomial identity over every commutative ring.", "quantifier": "all matrices of each size over every commutative ring", "why_tests_cant": "the 6x6 determinant is a literal sum of 720 signed products of 6 factors: a single wrong sign or index leaves almost all random tests within tolerance or requires a test hitting that monomial", "anchors": ["src/matrix2x2.rs:det", "src/matrix3x3.rs:det", "src/matrix4x4.rs:det", "src/matrix5x5.rs:det", "src/matrix6x6.rs:det"]}
{"id": "C05", "title": "det is multiplicative, transpose-invariant and alternating", "statement": "For every size, det(A*B)=det(A)*det(B), det(A.transpose())=det(A), det(identity())=1, det(A*s)=s^n*det(A), and exchanging two rows negates det.", "quantifier": "all pairs of matrices of each size over every commutative ring, all scalars, all pairs of rows", "why_tests_cant": "an algebraic identity in up to 72 variables", "anchors": ["src/traits.rs:LinearAlgebra::det", "src/matrix6x6.rs:det"]}
{"id": "C06", "title": "inverse() returns a two-sided inverse", "statement": "For every size, in exact real arithmetic, whenever m.inverse() returns Some(b) then m*b = identity() and b*m = identity(); the call never panics.", "quantifier": "all real matrices of each size for which inverse() is Some, every positive machine epsilon", "why_tests_cant": "adjugate code uses up to 36 cofactors with hand-managed signs and index transposition; tests check a single matrix per size", "anchors": ["src/matrix2x2.rs:inverse", "src/matrix3x3.rs:inverse", "src/matrix4x4.rs:inverse", "src/matrix5x5.rs:inverse", "src/matrix6x6.rs:inverse"]}
{"id": "C07", "title": "inverse() is None exactly for singular matrices", "statement": "inverse() returns Some for every matrix with non-zero determinant and None for every matrix with zero determinant.", "quantifier": "all matrices of each size (reals, and IEEE floats for the gate itself)", "why_tests_cant": "the gate is a tolerance comparison, so the misclassified region (0<|det|<epsilon, NaN determinants) is a set tests do not sample", "anchors": ["src/matrix2x2.rs:inverse", "src/matrix6x6.rs:inverse", "src/utils.rs:nearly_zero"]}
{"id": "C08", "title": "transpose laws", "statement": "For every size, entry (i,j) of transpose() is entry (j,i) of the input (bit for bit, any element type); transpose is an involution, additive, and (A*B).transpose() = B.transpose()*A.transpose().", "quantifier": "all matrices of every size; first two laws for every element type including NaN payload-free floats", "why_tests_cant": "hand-written permutation of up to 36 cells", "anchors": ["src/matrix2x2.rs:transpose", "src/matrix5x5.rs:transpose", "src/matrix6x6.rs:transpose"]}
{"id": "C09", "title": "trace and Frobenius norm laws", "statement": "trace(A) is the sum of the diagonal; trace(A+B)=trace A+trace B; trace(A*B)=trace(B*A). norm2(A)^2 = trace(A^T*A) = sum of squares of all entries, norm2(A)>=0, norm2(A)=0 iff A=zeros(), norm2(A*B) <= norm2(A)*norm2(B).", "quantifier": "all matrices of every size (ring laws over every commutative ring, norm laws over the reals)", "why_tests_cant": "inequalities over a continuum", "anchors": ["src/matrix2x2.rs:trace,norm2", "src/matrix4x4.rs:norm2", "src/matrix6x6.rs:trace,norm2"]}
{"id": "C10", "title": "LU factorization reconstructs the row-permuted matrix", "statement": "When lu() returns (lu, d, indx) for an invertible real matrix: with L the unit lower part and U the upper part of lu, L*U equals the input with its rows exchanged by the transpositions (k, indx[k]) for k=0..n-1 in order, and k <= indx[k] < n.", "quantifier": "all real invertible matrices of every size n (proved for arbitrary n, hence for 2..6)", "why_tests_cant": "partial pivoting makes the control flow data dependent: n! pivot orders times the value space", "anchors": ["src/matrix2x2.rs:lu", "src/matrix3x3.rs:lu", "src/matrix4x4.rs:lu", "src/matrix5x5.rs:lu", "src/matrix6x6.rs:lu"]}
{"id": "C11", "title": "LU reports the determinant and panics only on the zero matrix", "statement": "The second component of lu() equals det() of the matrix, and lu() panics ('the matrix should be non zero') exactly when the matrix is the zero matrix.", "quantifier": "all real matrices of every size", "why_tests_cant": "tests exercise one matrix; singular pivots and zero rows need specific structure", "anchors": ["src/matrix2x2.rs:lu", "src/matrix6x6.rs:lu"]}
{"id": "C12", "title": "QR factorization", "statement": "In exact real arithmetic, when qr() returns Some((q,r)): q*r equals the input, q is orthogonal (q^T*q = q*q^T = identity), r is upper triangular with strictly positive diagonal; qr() is Some exactly when |det| >= epsilon and it never divides by zero there.", "quantifier": "all real matrices of every size 2..6", "why_tests_cant": "Gram-Schmidt needs an inductive invariant over columns; positivity of the diagonal depends on linear independence", "anchors": ["src/matrix2x2.rs:qr", "src/matrix6x6.rs:qr", "src/slices_methods.rs:normalize,project_x_over_y"]}
{"id": "C13", "title": "Layout conversions round-trip", "statement": "For every size and element type: new_from_vecs(get_cols(m)) = m; get_rows(m)[i][j] = m[(i,j)]; get_cols(m)[j][i] = m[(i,j)]; as_vec()[i*n+j] = m[(i,j)]; get_diagonal()[i] = m[(i,i)]; the triangular getters list exactly the strictly upper/lower entries in row-major order. None of them panics.", "quantifier": "all matrices, all indices, every element type", "why_tests_cant": "index-counter loops writing in fixed-size arrays: an off-by-one is a panic or a silently wrong cell for some index only", "anchors": ["src/matrix2x2.rs:get_rows,get_cols,new_from_vecs,as_vec,get_diagonal", "src/matrix3x3.rs:get_upper_triagular,get_lower_triangular", "src/matrix6x6.rs:get_upper_triangular"]}
{"id": "C14", "title": "for_each maps every element exactly once", "statement": "m.for_each(f)[(i,j)] = f(m[(i,j)]) for all i,j<n; for_each(id)=id, for_each(f) then for_each(g) equals for_each(g . f); never panics.", "quantifier": "all matrices, all pure functions f, every element type", "why_tests_cant": "quantifies over functions", "anchors": ["src/matrix2x2.rs:for_each", "src/matrix3x3.rs:for_each", "src/matrix6x6.rs:for_each"]}
{"id": "C15", "title": "Indexing is total on in-range indices and panics otherwise", "statement": "m[(i,j)] succeeds iff i<n and j<n; after m[(i,j)] = x, reading (i,j) gives x and reading any other in-range cell gives the old value; out-of-range writes panic.", "quantifier": "all sizes, all indices (unbounded usize), all element values", "why_tests_cant": "frame property over all pairs of cells", "anchors": ["src/matrix2x2.rs:Index,IndexMut", "src/matrix6x6.rs:Index,IndexMut", "src/vector3.rs:Deref,DerefMut"]}
{"id": "C16", "title": "get_submatrix and copy_elements_from move the right block", "statement": "get_submatrix((i,j)) is the matrix with row i and column j deleted when i,j<n, and panics when a selected index is out of range; copy_elements_from(r,q) writes r in quadrant q in {1,2,3,4} and changes nothing else, and panics for any other q.", "quantifier": "all matrices, all selected pairs, all quadrants", "why_tests_cant": "running-index loops; frame condition on 27 untouched cells; invalid arguments are unbounded", "anchors": ["src/matrix4x4.rs:get_submatrix", "src/matrix5x5.rs:get_submatrix", "src/matrix6x6.rs:get_submatrix,copy_elements_from"]}
{"id": "C17", "title": "Vectors and matrices form modules", "statement": "For every size, + is associative and commutative with zeros() neutral, x + (-x) = zeros(), x - y = x + (-y), scaling distributes, += and -= agree with + and -; for IEEE floats v+w = w+v and s*v = v*s hold bit for bit.", "quantifier": "all vectors/matrices of size 2..6 over every commutative ring; commutation laws for every IEEE format", "why_tests_cant": "laws over triples; the bit-exact float law includes infinities, signed zeros and NaN", "anchors": ["src/vector2.rs:Add,Sub,Neg,Mul,AddAssign,SubAssign", "src/matrix6x6.rs:Add,Sub,Neg,Mul<T>"]}
{"id": "C18", "title": "Inner product and Euclidean norm", "statement": "For vectors of size 2..6 over the reals: v*v >= 0 with equality iff v = zeros(); |v*w| <= v.norm2()*w.norm2() (Cauchy-Schwarz); (v+w).norm2() <= v.norm2()+w.norm2(); (v*s).norm2() = |s|*v.norm2().", "quantifier": "all real vectors and scalars of each size", "why_tests_cant": "inequalities over a continuum, tight on collinear vectors", "anchors": ["src/vector2.rs:norm2,Mul", "src/vector3.rs:norm2,Mul", "src/vector4.rs:norm2", "src/vector5.rs:norm2", "src/vector6.rs:norm2"]}
{"id": "C19", "title": "normalize() yields the unit vector or the documented error", "statement": "For vectors of size 2..6 over the reals, normalize() is Err(Norm2IsZero) exactly for the zero vector; otherwise it is Ok(u) with u.norm2() = 1 and v = u * v.norm2().", "quantifier": "all real vectors of each size", "why_tests_cant": "continuum of inputs; the error branch must be exact", "anchors": ["src/vector2.rs:normalize", "src/vector3.rs:normalize", "src/vector6.rs:normalize", "src/errors.rs:VectorErrors"]}
{"id": "C20", "title": "Cross product", "statement": "cross is bilinear, anticommutative, orthogonal to both factors, satisfies the Jacobi and Lagrange identities, the triple product u*(v x w) is the determinant of [u v w], and |v x w|^2 = |v|^2|w|^2-(v*w)^2.", "quantifier": "all triples of 3-vectors over every commutative ring", "why_tests_cant": "polynomial identities in nine variables", "anchors": ["src/vector3.rs:cross"]}
{"id": "C21", "title": "find_max_min returns extremal values and first positions", "statement": "On a non-empty slice over a total order, find_max_min returns the maximum and minimum and the first index at which each occurs; on the empty slice it panics; indices always point at the returned values.", "quantifier": "all slices of every length over every total order", "why_tests_cant": "unbounded length, ties", "anchors": ["src/slices_methods.rs:find_max_min,MaxMin"]}
{"id": "C22", "title": "norm_inf and norm_l are the infinity and 1 norms", "statement": "For every slice, norm_l is the sum of absolute values and norm_inf is the largest absolute value.", "quantifier": "all slices of every length over the integers and the reals", "why_tests_cant": "unbounded length; test vectors happen to have a non-negative entry of largest modulus", "anchors": ["src/slices_methods.rs:norm_inf,norm_l", "src/vector2.rs:norm_inf"]}
{"id": "C23", "title": "nearly_equal is a sane comparison on floats", "statement": "For every IEEE format and every tolerance: nearly_equal is symmetric; reflexive on every non-NaN value (including infinities); false as soon as one argument is NaN; with zero it means |a|<tolerance (or a = 0).", "quantifier": "all float values (infinities, NaN, subnormals, signed zeros), all tolerances, all precisions", "why_tests_cant": "2^128 pairs for f64 and the special values are where it breaks", "anchors": ["src/utils.rs:nearly_equal,nearly_zero"]}
{"id": "C24", "title": "Slice comparison helpers decide what they claim", "statement": "compare_vecs(a,b,eps) is true iff a and b have the same length and are element-wise nearly equal; compare_floats(a,b,t) iff |a-b|<t; check_elements(v,tol) is true iff some element x satisfies |x|<tol or x=0.", "quantifier": "all slices of every length", "why_tests_cant": "unbounded lengths, unequal lengths", "anchors": ["src/utils.rs:compare_vecs,compare_floats", "src/slices_methods.rs:check_elements"]}
{"id": "C25", "title": "is_rotation accepts exactly the rotation matrices", "statement": "Over the reals is_rotation(r) is true for every r in SO(3) and false for every matrix that is not (approximately) orthogonal with determinant one.", "quantifier": "all real 3x3 matrices", "why_tests_cant": "soundness quantifies over all non-rotations", "anchors": ["src/utils.rs:is_rotation,is_rotation_h"]}
{"id": "C26", "title": "Quaternions form a normed division ring", "statement": "Quaternion multiplication is associative, unital, distributive; conj reverses products; q*conj(q) is abs2(q) as a real; abs2(p*q)=abs2(p)*abs2(q); i*i=j*j=k*k=i*j*k=-1.", "quantifier": "all quaternions over every commutative ring (components; the cached flag is ignored by these laws)", "why_tests_cant": "polynomial identities in 8-12 variables", "anchors": ["src/quaternion.rs:Mul,Add,Sub,conj,abs2,dot"]}
{"id": "C27", "title": "Unit quaternions act on vectors as rotations", "statement": "For every unit quaternion q: q*v equals the vector part of q (0,v) conj(q); |q*v|=|v|; (p*q)*v = p*(q*v); q*(v x w) = (q*v) x (q*w); q.to_rotation()*v = q*v; to_rotation is in SO(3) and multiplicative; -q gives the same rotation.", "quantifier": "all unit quaternions and all vectors (polynomial identities modulo |q|=1 over every commutative ring)", "why_tests_cant": "continuum of inputs; sign conventions differ only on generic inputs", "anchors": ["src/quaternion.rs:Mul<V3>,to_rotation"]}
{"id": "C28", "title": "Rotation matrix to quaternion round-trips", "statement": "For every real r in SO(3), from_rotation(r) is a unit quaternion with to_rotation() = r (so from_rotation(q.to_rotation()) = q or -q for unit q); no branch divides by zero or takes the root of a negative number.", "quantifier": "all of SO(3), hence all four branches including their boundaries", "why_tests_cant": "the source carries a TODO 'test all the cases for this method'; branch boundaries are measure-zero sets", "anchors": ["src/quaternion.rs:from_rotation"]}
{"id": "C29", "title": "Axis-angle construction and extraction", "statement": "rotation(theta, v) is a unit quaternion rotating by Rodrigues' formula about v/|v| (panics exactly for v = 0); rotation_norm_encoded(v) is rotation(|v|, v), or the identity when |v| < epsilon; get_angle recovers the angle and get_axis the axis (None exactly when the sine of the half angle is at most epsilon) for 0<=theta<=2*pi; the angle is in [0, 2*pi].", "quantifier": "all angles and axes", "why_tests_cant": "transcendental identities over a continuum", "anchors": ["src/quaternion.rs:rotation,rotation_norm_encoded,get_angle,get_axis,axis_angle"]}
{"id": "C30", "title": "Euler angle conversions agree", "statement": "euler_to_rotation(a,b,c,Some(IJK)) = rot_i(a)*rot_j(b)*rot_k(c) for each of the sequences (None = ZYX) and lies in SO(3); from_euler_angles(y,p,r).to_rotation() = euler_to_rotation(y,p,r,None).", "quantifier": "all angle triples, all sequences", "why_tests_cant": "a mislabelled sequence is only visible when that sequence is tested; the suite tests none of the ten", "anchors": ["src/transformations.rs:euler_to_rotation,rotx,roty,rotz,EulerSeq", "src/quaternion.rs:from_euler_angles"]}
{"id": "C31", "title": "rotation_to_euler inverts euler_to_rotation", "statement": "For every r in SO(3), euler_to_rotation of rotation_to_euler(r) (ZYX) is r: exactly at gimbal lock and whenever the cosine of the pitch is at least 4 epsilon, and up to 8 epsilon in every entry for all r; the pitch is in [-pi/2,pi/2].", "quantifier": "all of SO(3)", "why_tests_cant": "gimbal lock is a measure-zero set", "anchors": ["src/transformations.rs:rotation_to_euler", "src/quaternion.rs:to_euler_angles"]}
{"id": "C32", "title": "Quaternion normalize, inverse and division", "statement": "normalize() is None only for (nearly) zero quaternions, otherwise a unit quaternion with the same direction; inverse() returns q' with q*q' = q'*q = 1; p/q*q = p. A quaternion whose cached 'normalized' flag is set really has norm one.", "quantifier": "all quaternions reachable through the public API", "why_tests_cant": "the cached flag makes correctness depend on the history of constructors", "anchors": ["src/quaternion.rs:normalize,inverse,Div,normalize_q"]}
{"id": "C33", "title": "Quaternion exp, ln, sqrt, pow", "statement": "exp(ln(q)) = q for every non-zero q; ln(exp(q)) = q when |imag(q)| < pi; sqrt(q)*sqrt(q) = q; the exponential of a pure quaternion is a unit quaternion.", "quantifier": "all quaternions in the stated domains", "why_tests_cant": "transcendental identities with tolerance branches", "anchors": ["src/quaternion.rs:exp,ln,sqrt,pow"]}
{"id": "C34", "title": "slerp interpolates", "statement": "For unit quaternions a,b and t in [0,1]: slerp(a,b,0) = a and slerp(a,b,1) = b or -b (same rotation), and the result is a unit quaternion.", "quantifier": "all pairs of unit quaternions, all t in [0,1]", "why_tests_cant": "the short-arc and nearly-parallel branches are tiny regions of the input space", "anchors": ["src/quaternion.rs:slerp"]}
{"id": "C35", "title": "Dual quaternions form an associative algebra", "statement": "Multiplication is associative, unital and distributive, epsilon squares to zero; the three conjugations are (anti)automorphisms; norm() = dq*conj(dq) has real part |real|^2 and scalar dual part.", "quantifier": "all dual quaternions over every commutative ring", "why_tests_cant": "identities in 16-24 variables", "anchors": ["src/dual_quaternion.rs:Mul,Add,Sub,conj,conj_as_dual,conj_combined,norm"]}
{"id": "C36", "title": "Dual quaternions act as rigid motions", "statement": "For a unit rotation q and translation t, new_from_rot_trans(q,t).transform_point(p) = q*p + t; to_homogeneous of a product is the product of the homogeneous matrices; transform_point of a product is the composition; to_homogeneous()*(p,1) = (transform_point(p),1).", "quantifier": "all unit dual quaternions and all points", "why_tests_cant": "the example in the repository compares two paths on one pose only", "anchors": ["src/dual_quaternion.rs:transform_point,new_from_rot_trans,to_homogeneous,get_translation"]}
{"id": "C37", "title": "Dual quaternion conversions round-trip", "statement": "new_from_homogeneous(T).to_homogeneous() = T for every T in SE(3); new_from_rot_trans(q,t) yields rotation q and translation t; new_from_translation(t)*new_from_rotation(q) = new_from_rot_trans(q,t).", "quantifier": "all of SE(3)", "why_tests_cant": "continuum, four branches in the rotation conversion", "anchors": ["src/dual_quaternion.rs:new_from_homogeneous,to_homogeneous,to_quaternion_translation,new_from_translation,new_from_rotation,new_from_array"]}
{"id": "C38", "title": "Dual quaternion inverse and normalize", "statement": "dq * dq.inverse() = dq.inverse() * dq = one() for every dual quaternion built through the public API whose real part is not (nearly) zero; normalize() returns a unit dual quaternion.", "quantifier": "all dual quaternions reachable by the public constructors", "why_tests_cant": "correctness depends on a cached flag set by several constructors", "anchors": ["src/dual_quaternion.rs:inverse,normalize,new_from_rotation,is_normalized"]}
{"id": "C39", "title": "Screw parameters and powers", "statement": "new_from_screw_parameters(get_screw_parameters(dq)) = dq for unit dq with non-zero rotation angle; pow(0) = one, pow(1) = dq, pow(a)*pow(b) = pow(a+b) on unit dual quaternions.", "quantifier": "all unit dual quaternions with rotation angle not (nearly) zero, all real exponents", "why_tests_cant": "transcendental identities", "anchors": ["src/dual_quaternion.rs:get_screw_parameters,new_from_screw_parameters,pow"]}
{"id": "C40", "title": "screw_lerp interpolates rigid motions", "statement": "For unit dual quaternions, screw_lerp(a,b,0) represents the motion a and screw_lerp(a,b,1) the motion b.", "quantifier": "all pairs of unit dual quaternions", "why_tests_cant": "the sign-choosing branch is taken on half of the input space but only a few pairs are tested", "anchors": ["src/dual_quaternion.rs:screw_lerp"]}
{"id": "C41", "title": "Dual quaternion division", "statement": "(a/b)*b = a for all dual quaternions with invertible real part of b.", "quantifier": "all pairs of dual quaternions", "why_tests_cant": "non-commutativity is invisible on commuting samples", "anchors": ["src/dual_quaternion.rs:Div"]}
{"id": "C42", "title": "Homogeneous transformations", "statement": "homogeneous_from_rotation and get_parts_raw are inverse on SE(3); products of SE(3) matrices are in SE(3); homogeneous_inverse(T)*T = T*homogeneous_inverse(T) = identity for T in SE(3); homogeneous_inverse_transform(T,p) applies the inverse motion to the point p; homogeneous_inverse agrees with the general inverse().", "quantifier": "all of SE(3), all points", "why_tests_cant": "continuum", "anchors": ["src/transformations.rs:homogeneous_from_rotation,get_parts_raw,homogeneous_inverse,homogeneous_inverse_transform"]}
{"id": "C43", "title": "Skew and twist encodings", "statement": "skew_to_vec(skew_from_vec(v)) = v; skew_from_vec(v)*w = v x w; skew matrices are antisymmetric and skew_from_vec inverts skew_to_vec on them; se3_to_twist(twist_to_se3(x)) = x and conversely on se(3); vex_m22(skew_scalar(x)) = x.", "quantifier": "all vectors, twists and matrices over every commutative ring", "why_tests_cant": "sign placement in 9-16 cells", "anchors": ["src/transformations.rs:skew_from_vec,skew_to_vec,skew_scalar,vex_m22,twist_to_se3,se3_to_twist,se3_from_parts,se3_get_parts,skew_v6,skew_from_vec_aug"]}
{"id": "C44", "title": "matrix_exponential is the matrix exponential on so(3)", "statement": "For every skew-symmetric real A with |vec(A)| >= epsilon, matrix_exponential(A) is the sum of the series A^k/k!; it lies in SO(3); rotation_from_axis_angle(w,theta) = matrix_exponential(skew(w*theta)) for unit w.", "quantifier": "all of so(3)", "why_tests_cant": "limit of an infinite series", "anchors": ["src/transformations.rs:matrix_exponential,rotation_from_axis_angle,axis_angle"]}
{"id": "C45", "title": "matrix_log inverts the exponential on SO(3)", "statement": "For every rotation R in SO(3), matrix_log(R) is skew-symmetric and matrix_exponential(matrix_log(R)) = R.", "quantifier": "all of SO(3), including half-turns and the identity", "why_tests_cant": "half-turns are a measure-zero set with three separate branches", "anchors": ["src/transformations.rs:matrix_log"]}
{"id": "C46", "title": "Exponential and logarithm on SE(3)", "statement": "matrix_exponential6 maps se(3) into SE(3) and is the matrix exponential there; matrix_exponential6(matrix_log6(T)) = T for T in SE(3); matrix_log6(matrix_exponential6(B)) = B for B in se(3) whose rotation part has norm at least epsilon and below pi.", "quantifier": "all of se(3) / SE(3)", "why_tests_cant": "limit of a series; pure-translation branch is a measure-zero set", "anchors": ["src/transformations.rs:matrix_exponential6,matrix_log6,axis_angle6,screw_to_axis"]}
{"id": "C47", "title": "Adjoint representation", "statement": "For T1,T2 in SE(3): adjoint(T1*T2) = adjoint(T1)*adjoint(T2), adjoint(identity) = identity, and adjoint(T)*V corresponds to T*[V]*T^-1.", "quantifier": "all of SE(3), all twists", "why_tests_cant": "36-entry block identities", "anchors": ["src/transformations.rs:adjoint", "src/matrix6x6.rs:copy_elements_from"]}
{"id": "C48", "title": "Real eigenvalues of 2x2 matrices", "statement": "real_eigenvals() is Some((a,b)) exactly when the characteristic polynomial has real roots, and then a and b are its two roots (a+b = trace, a*b = det).", "quantifier": "all real 2x2 matrices", "why_tests_cant": "continuum; discriminant zero is a measure-zero set", "anchors": ["src/matrix2x2.rs:real_eigenvals"]}
{"id": "C49", "title": "Integer-valued float computations are exact", "statement": "For every IEEE format, matrix products, matrix-vector products, dot products and determinants of integer-valued inputs whose worst-case sums stay within 2^prec are exactly the integer results (no rounding, no overflow).", "quantifier": "all integer-valued float inputs within the stated bound, all precisions including f32 and f64", "why_tests_cant": "billions of inputs; the bound depends on the number of terms", "anchors": ["src/matrix6x6.rs:det,Mul", "src/vector6.rs:Mul"]}
{"id": "C50", "title": "Dot products obey the standard rounding-error bound", "statement": "For every IEEE format, if no overflow occurs the computed v*w differs from the exact inner product by at most the standard bound gamma_n*sum|v_i w_i| plus an underflow term.", "quantifier": "all finite float vectors of size 2..6", "why_tests_cant": "rounding errors over the whole float range", "anchors": ["src/vector2.rs:Mul", "src/vector3.rs:Mul", "src/vector6.rs:Mul"]}
{"id": "C51", "title": "distance_to_manifold measures orthogonality", "statement": "distance_to_manifold(m) = 0 iff m is in SO(3), is non-negative, and is infinity exactly when det(m) <= 0.", "quantifier": "all real 3x3 matrices", "why_tests_cant": "iff over a continuum", "anchors": ["src/transformations.rs:distance_to_manifold"]}
{"id": "C52", "title": "Planar transformations", "statement": "rot2(a) is in SO(2), rot2(a)*rot2(b) = rot2(a+b); ksi(a,x,y) = translation_2d(x,y)*ksi(a,0,0) and ksi composes as SE(2); translation_3d(x)*translation_3d(y) = translation_3d(x+y).", "quantifier": "all angles and displacements", "why_tests_cant": "transcendental identities", "anchors": ["src/transformations.rs:rot2,ksi,translation_2d,translation_3d"]}
{"id": "C53", "title": "Quaternion kinematics", "statement": "derivative(q, w) is the time derivative of the quaternion trajectory rotating with spatial angular velocity w: if q(t) = rotation(|w|*t, w)*q0 then q'(t) = derivative(q(t), w) at every t; the derivative is tangent to the unit sphere.", "quantifier": "all quaternions, all non-zero angular rates, all times", "why_tests_cant": "a statement about a limit", "anchors": ["src/quaternion.rs:derivative"]}
{"id": "C54", "title": "Panics happen exactly on the stated inputs", "statement": "For every scalar type, NaNs and infinities included: inverse, qr, normalize, matrix_exponential, matrix_exponential6 and adjoint always return; lu panics exactly when every entry of the first row is zero (or NaN); rotation and axis_angle exactly when the computed norm is zero; quaternion division, dual quaternion inverse, division, screw_lerp, new_from_rot_trans and new_from_homogeneous exactly when the quaternion they divide by or normalize is not flagged normalized and nearly zero; the dual quaternion log exactly when it is flagged and has no axis; find_max_min and norm_inf exactly on the empty slice; dot and project_x_over_y exactly on different lengths; indexing exactly out of range.", "quantifier": "all inputs of every modelled function that can panic, every scalar type", "why_tests_cant": "absence of panics for all inputs", "anchors": ["src/quaternion.rs:rotation,Div", "src/dual_quaternion.rs:new_from_rot_trans,inverse,log,screw_lerp", "src/transformations.rs:axis_angle,matrix_exponential", "src/slices_methods.rs:dot,find_max_min", "src/matrix6x6.rs:lu,inverse,qr"]}
{"id": "C55", "title": "Quaternion sine and cosine", "statement": "sin never panics; for q = a + m u (u a unit imaginary vector) sin(q) = sin a cosh m + u cos a sinh m and cos(q) = cos a cosh m - u sin a sinh m, hence sin(q)^2 + cos(q)^2 = 1, whenever a and m are zero or outside the epsilon tolerances of exp and normalize_q.", "quantifier": "all quaternions outside the tolerance zones", "why_tests_cant": "transcendental identities over a four-dimensional continuum", "anchors": ["src/quaternion.rs:sin,cos,argq,exp"]}
{"id": "C56", "title": "Dual quaternion logarithm", "statement": "log() returns None exactly for dual quaternions not flagged normalized; otherwise it returns (theta/2 * axis, t/2) for the rotation (axis, theta) and translation t; it does not panic.", "quantifier": "all dual quaternions, including pure translations and the identity", "why_tests_cant": "the panic on pure translations is a measure-zero branch that the tests never reach", "anchors": ["src/dual_quaternion.rs:285-297", "src/quaternion.rs:349-358"]}
{"id": "C57", "title": "Division by a scalar", "statement": "A / s divides every entry of a matrix, vector or quaternion by s and nothing else; for s != 0 it undoes multiplication by s on either side and equals multiplication by 1/s; a quaternion divided by a scalar is never flagged normalized.", "quantifier": "all sizes 2..6, all entries, all scalars", "why_tests_cant": "the tests divide one or two literal arrays of some of the sizes", "anchors": ["src/matrix2x2.rs:Div", "src/matrix6x6.rs:Div", "src/vector6.rs:Div", "src/quaternion.rs:Div<T>"]}
{"id": "C58", "title": "is_zero, == and ones of vectors and matrices", "statement": "is_zero() holds exactly when every component compares equal to zero; == holds exactly when all components are equal; zeros() is zero; ones() has every component one.", "quantifier": "all sizes, all entries, any scalar type (with a lawful scalar equality for ==)", "why_tests_cant": "an implementation that skips one component agrees on almost every literal", "anchors": ["src/matrix3x3.rs:Zero,PartialEq", "src/vector4.rs:Zero,ones"]}
{"id": "C59", "title": "Quaternion equality is equality of the numbers", "statement": "Two quaternions (dual quaternions) compare equal exactly when their components are equal, and is_zero() holds exactly when all components are zero.", "quantifier": "all pairs of quaternions and dual quaternions, whatever operations produced them", "why_tests_cant": "the tests compare components one by one; equality also compares the hidden normalized flags, which only matters for values reached by different operations", "anchors": ["src/quaternion.rs:44-50", "src/dual_quaternion.rs:47-55"]}
{"id": "C60", "title": "dot and project_x_over_y of slices", "statement": "dot(x, y) panics exactly when the lengths differ and otherwise is the sum of x_k y_k; project_x_over_y(x, y) panics in the same case and otherwise returns the p for which x - p y is orthogonal to y, for y != 0.", "quantifier": "all slices of all lengths", "why_tests_cant": "lengths are unbounded", "anchors": ["src/slices_methods.rs:83-110"]}
{"id": "C61", "title": "Quaternion and dual quaternion constructors and parts", "statement": "Each constructor stores the components it is given in the order (w, x, y, z), the accessors read the same components back, and new_from_array with a unit quaternion part and a translation is the rigid motion with that rotation and translation.", "quantifier": "all component values", "why_tests_cant": "a swapped pair of components is invisible on symmetric literals", "anchors": ["src/quaternion.rs:new,new_from,new_from_vec,new_real,new_imag,real,imag", "src/dual_quaternion.rs:new,new_from_array,to_quaternion_translation"]}
{"id": "C62", "title": "Euler angles of a quaternion and parts of a homogeneous matrix rebuild the motion", "statement": "from_euler_angles(to_euler_angles(q)) is q or -q for every unit q whose pitch is exactly vertical or at least 4 eps away from it, and gives the same rotation to 8 eps per entry everywhere; get_parts followed by homogeneous_from_quaternion is the identity on rigid motions under the same proviso.", "quantifier": "all unit quaternions and all rigid motions", "why_tests_cant": "the gimbal-lock branch is a measure-zero set, and the neighbourhood of it has to be bounded, not sampled", "anchors": ["src/quaternion.rs:to_euler_angles,from_euler_angles", "src/transformations.rs:get_parts"]}
{"id": "C63", "title": "Screw axes", "statement": "The twist screw_to_axis(q, s, h) has angular part s, moves q with velocity h s, does not depend on which point of the axis q is, is carried by a rigid motion (through adjoint) to the screw of the moved axis, and its exponential by theta rotates about the line (q, s) by theta and translates along it by h theta.", "quantifier": "all points, unit directions, pitches and all angles at least eps in absolute value", "why_tests_cant": "three-dimensional families of lines and angles", "anchors": ["src/transformations.rs:screw_to_axis,matrix_exponential6,adjoint"]}
{"id": "C64", "title": "axis_angle and axis_angle6", "statement": "axis_angle(v) panics exactly for v = 0 and otherwise returns a unit axis n and theta = |v| with n theta = v; axis_angle6(e) returns an axis and a theta with axis * theta = e and the angular part (or, below eps, the linear part) of the axis of norm one.", "quantifier": "all vectors; all twists other than pure zero ones", "why_tests_cant": "the branch between rotation and translation is decided by an epsilon test", "anchors": ["src/transformations.rs:axis_angle,axis_angle6"]}
{"id": "C65", "title": "rotation_inverse", "statement": "For a rotation matrix rotation_inverse(r) is a rotation, is its two-sided inverse and is what r.inverse() returns.", "quantifier": "all rotation matrices", "why_tests_cant": "quantified over SO(3)", "anchors": ["src/transformations.rs:rotation_inverse"]}
{"id": "C66", "title": "Neutral elements in floating point", "statement": "On floats A * one, A / one and the vector versions return A bit for bit, NaNs and infinities included; for finite A the products A * I and I * A and the sum A + 0 keep the value of every entry (every bit of the non-zero ones) and A - A is +0 everywhere.", "quantifier": "all sizes, all matrices over every IEEE binary format", "why_tests_cant": "all bit patterns of up to 36 entries", "anchors": ["src/matrix4x4.rs:Mul", "src/matrix2x2.rs:identity", "src/vector3.rs:Div"]}
{"id": "C67", "title": "Transpose of a product in floating point", "statement": "(A B)^T and B^T A^T are the same floats bit for bit.", "quantifier": "all sizes, all float matrices", "why_tests_cant": "depends on the order in which every entry's products are summed", "anchors": ["src/matrix4x4.rs:Mul", "src/matrix6x6.rs:Mul"]}
{"id": "C68", "title": "The singularity test on floats", "statement": "inverse() and qr() of a float matrix return None exactly when the computed determinant is smaller than 2^(1-prec) in absolute value; a NaN determinant passes the test and yields Some.", "quantifier": "all sizes, all float matrices including NaN and infinite entries", "why_tests_cant": "NaN and tiny determinants are not sampled", "anchors": ["src/matrix3x3.rs:inverse,qr", "src/utils.rs:nearly_zero"]}
{"id": "C69", "title": "Comparison of float matrices and dual quaternions", "statement": "== on float matrices is symmetric and holds reflexively exactly when there is no NaN; compare_dual_quaternions compares exactly the eight components with nearly_equal, is symmetric, and is reflexive exactly when no component is NaN.", "quantifier": "all float matrices of all sizes, all dual quaternions over floats, every tolerance", "why_tests_cant": "a comparison that skips a component agrees on the tested values", "anchors": ["src/utils.rs:88-102", "src/matrix2x2.rs:PartialEq"]}
{"id": "C70", "title": "Displayed text", "statement": "Display of a vector is its elements in index order, centred, between brackets on one line; of a matrix, one line per row between bars, elements in column order, first column left-aligned, last right-aligned, the others centred; of a quaternion the scalar part then the vector part; of a dual quaternion the real then the dual part. Text already in the destination is kept.", "quantifier": "all sizes 2-6, all elements, every way of showing an element, every previous content of the destination", "why_tests_cant": "the repository never tests the Display output; one swapped index among ninety would pass any sampled check with repeated values", "anchors": ["src/matrix3x3.rs:628-653", "src/matrix6x6.rs:1930-1996", "src/vector6.rs:294-299", "src/quaternion.rs:548-552", "src/dual_quaternion.rs:493-497"]}
{"id": "C71", "title": "Displaying has no other effect", "statement": "Formatting a value only appends to the formatter it is given; nothing is written to the standard output.", "quantifier": "all vectors, matrices, quaternions and dual quaternions", "why_tests_cant": "a test captures the formatted string, not the standard output of the process", "anchors": ["src/matrix2x2.rs:529-533", "src/matrix3x3.rs:630", "src/matrix4x4.rs:821", "src/matrix5x5.rs:1080", "src/matrix6x6.rs:1932"]}
{"id": "C72", "title": "Shape, constants and array conversions", "statement": "shape() is (n, n); Vn_ZEROS is the zero vector and neutral for +; M22_IDENT and M22_ZEROS are neutral for * and +; the axis constants form a right-handed frame in which every vector has its own coordinates; & on V4<bool> is elementwise; a quaternion from an array takes scalar part first.", "quantifier": "all sizes, all commutative rings of scalars, all boolean vectors and arrays", "why_tests_cant": "neutrality is a statement over all vectors and matrices", "anchors": ["src/traits.rs:33-42", "src/vector3.rs:300-306", "src/matrix2x2.rs:540-541", "src/vector4.rs:73-78", "src/quaternion.rs:539-543"]}
{"id": "C73", "title": "No undefined operation in exact arithmetic", "statement": "In exact arithmetic where dividing by zero, taking the root or logarithm of a negative number, the arc cosine outside [-1,1] or the tangent at a pole gives an error that propagates, the following never hit it: quaternion normalize, inverse, /, rotation, rotation_norm_encoded, from_euler_angles, from_rotation, get_axis, get_angle, arg, exp, sqrt, pow, sin, cos, slerp; dual quaternion inverse, /, normalize, is_normalized, log and all constructors; axis_angle, matrix_exponential, matrix_exponential6, rotation_to_euler, get_parts, homogeneous_inverse_transform, is_rotation, is_rotation_h, distance_to_manifold on every input; matrix_log on every rotation. ln hits it exactly on the zero quaternion and axis_angle6 exactly on a twist with negligible rotation and zero translation.", "quantifier": "all real inputs (for matrix_log: all rotation matrices)", "why_tests_cant": "a guard that admits an input on which a division or root is undefined is reached on a measure-zero set; floats hide it behind NaN or huge numbers", "anchors": ["src/quaternion.rs", "src/dual_quaternion.rs", "src/transformations.rs:382-471", "src/transformations.rs:553-598"]}
{"id": "C74", "title": "Half turns are handled by the screw functions", "statement": "For every rigid motion get_screw_parameters, pow and screw_lerp of its unit dual quaternion, and matrix_log6 of its matrix, are computed without dividing by zero or taking a tangent at its pole.", "quantifier": "all unit dual quaternions and all matrices of SE(3)", "why_tests_cant": "half turns and the interpolation of a pose to itself are isolated inputs; floats return large numbers instead of failing because sin(PI) is not exactly zero in floats", "anchors": ["src/dual_quaternion.rs:182-205", "src/dual_quaternion.rs:242-282", "src/transformations.rs:608-631"]}
{"id": "C75", "title": "What the normalized flags remember", "statement": "A quaternion or dual quaternion made by a constructor of unit values (one, normalize, rotation, from_euler_angles, normalize_q, argq, new_from_rotation, new_from_point, new_from_translation, new_from_rotation_matrix, new_from_rot_trans, new_from_homogeneous) is trusted: is_normalized() is true, normalize() returns it unchanged, inverse() is the conjugate without a panic. Every arithmetic result is untrusted and is measured again. log() of a dual quaternion is available for every unit dual quaternion.", "quantifier": "all scalar types and all values, including NaN components", "why_tests_cant": "the flag is private state set and cleared by some forty functions; a wrong flag is silent until a later inverse, normalize or log", "anchors": ["src/quaternion.rs", "src/dual_quaternion.rs:55-92", "src/dual_quaternion.rs:160-170", "src/dual_quaternion.rs:285-391"]}
{"id": "C76", "title": "Integer element types: overflow", "statement": "With a signed or unsigned integer element type of any width, in a build with overflow checks +, -, *, unary minus, scaling and the products of matrices and vectors return the exact integer result or panic, and panic exactly when some product or partial sum does not fit the type; quaternion and dual quaternion products that return are exact, and do not panic when the components are small. In a build without checks every component of a product is the exact one reduced once modulo 2^w into the type, so ring laws hold and both builds agree whenever the checked one does not panic. Division truncates towards zero and panics exactly for a zero divisor or a quotient that does not fit.", "quantifier": "all integer types, all five sizes, all entries", "why_tests_cant": "overflow of an intermediate sum depends on the order of summation and on entries near the limits of the type", "anchors": ["src/matrix2x2.rs", "src/matrix3x3.rs:332-530", "src/matrix4x4.rs", "src/matrix5x5.rs", "src/matrix6x6.rs", "src/vector3.rs", "src/quaternion.rs:152-235", "src/dual_quaternion.rs:96-137"]}
{"id": "C77", "title": "No undefined operation in matrices, vectors and slices", "statement": "In exact arithmetic where a division by zero or the root of a negative number gives an error that propagates, inverse, qr and lu of all matrix sizes, norm2, real_eigenvals, and norm2 and normalize of the vector types never hit it. Dividing a matrix or vector by a scalar hits it exactly for the scalar zero, slices_methods::normalize exactly on a non-empty slice of zeros, and project_x_over_y exactly when the second slice is all zeros.", "quantifier": "all real inputs, all five sizes, slices of every length", "why_tests_cant": "the guards of the factorizations admit inputs by a tolerance on the determinant or a replaced pivot; whether some later divisor can still be zero is a statement about every matrix", "anchors": ["src/matrix2x2.rs:104-138", "src/matrix2x2.rs:285-360", "src/matrix5x5.rs:275-372", "src/matrix6x6.rs:906-1005", "src/vector3.rs:132-144", "src/slices_methods.rs:78-101"]}
{"id": "C78", "title": "Constructors and row access", "statement": "new_from lists its arguments as the elements in order (row by row for a matrix); the slice view of a vector or matrix has exactly the elements of the array at the same positions; m[i] is defined iff i<n and m[i][j] is m[(i,j)]; assigning m[i] replaces row i and leaves every other row alone, and panics out of range.", "quantifier": "all element types, sizes, indices", "why_tests_cant": "quantifies over every element type and index", "anchors": ["src/vector6.rs:49-56", "src/matrix2x2.rs:49-56", "src/matrix2x2.rs:458-495", "src/matrix6x6.rs:1849-1905"]}
{"id": "C79", "title": "Quaternion exp, sin and cos are the power series", "statement": "exp(q) is the sum of q^n/n!, cos(q) of (-1)^n q^(2n)/(2n)! and sin(q) of (-1)^n q^(2n+1)/(2n+1)!, where q^n is the n-fold Hamilton product and the series converge component by component: for exp whenever the imaginary part is zero or longer than epsilon, for sin and cos whenever its squared length and the absolute value of the real part are each zero or larger than epsilon.", "quantifier": "all quaternions outside the tolerance zones", "why_tests_cant": "limits of infinite series over a four-dimensional continuum", "anchors": ["src/quaternion.rs:exp,sin,cos"]}
{"id": "C80", "title": "Rounding errors of determinants, cross products and quaternion rotations", "statement": "For every IEEE format: when the entries are multiples of 2^q with n*q >= emin (so that no product underflows) and the computed det() is finite, it differs from the exact determinant by at most ((1+u)^k - 1) times the permanent of the absolute values, with k = 2, 5, 26, 123, 724 for sizes 2 to 6; it is finite when the entries are at most B and (1+u)^k n! B^n < 2^emax; it has the right sign, and inverse() answers, when the exact determinant exceeds the error bound (plus epsilon for inverse). The same kind of bound holds componentwise for cross, the Hamilton product (k = 4), q * V3 (k = 7) and to_rotation (k = 4).", "quantifier": "all sizes, all precisions, all float inputs on the stated grid", "why_tests_cant": "rounding errors over the whole float range; a test compares with a tolerance chosen by hand", "anchors": ["src/matrix6x6.rs:det", "src/matrix4x4.rs:det,inverse", "src/vector3.rs:cross", "src/quaternion.rs:Mul,to_rotation"]}
{"id": "C81", "title": "Norms and normalization on floats", "statement": "For every finite, non-zero float vector (and quaternion), norm2() is the Euclidean norm and normalize() the unit vector in its direction, up to a relative error of (1+u)^(n+1) - 1 for the norm and (1+u)/(1-g) - 1 (g the error of the norm) for each component.", "quantifier": "all sizes, all precisions, all finite float vectors", "why_tests_cant": "holds or fails depending on the magnitude of the entries; the tests use a handful of small numbers", "anchors": ["src/vector2.rs:norm2,normalize", "src/vector6.rs:norm2,normalize", "src/quaternion.rs:norm2"]}
{"id": "C82", "title": "The accuracy of inverse() on floats", "statement": "For every IEEE format: when the entries are multiples of 2^q with n*q >= emin, the computed determinant is finite and the exact determinant exceeds its error bound (relative error g < 1), every finite entry of inverse() differs from the exact inverse entry C/D by at most ((1+u)^(k+2)/(1-g) - 1) P/|D| + ((1+u)^(k+1) P + 1) eta, with P the permanent of the absolute minor and k = 0, 2, 5, 27, 124 for sizes 2 to 6; the products with the matrix on either side differ from the identity by the corresponding sums. When the computed determinant is infinite or NaN, inverse() still answers Some, and every entry is a zero or NaN.", "quantifier": "all sizes, all precisions, all float matrices on the stated grid; all matrices for the last part", "why_tests_cant": "rounding errors over the whole float range; overflow of the determinant is never exercised", "anchors": ["src/matrix2x2.rs:inverse", "src/matrix3x3.rs:inverse", "src/matrix4x4.rs:inverse", "src/matrix5x5.rs:inverse", "src/matrix6x6.rs:inverse"]}
{"id": "C83", "title": "The eigenvalue program of examples/", "statement": "examples/eigenvalues.rs iterates m := R*Q (m = Q*R) until the entries below the diagonal vanish and prints the diagonal: what it prints are the eigenvalues of the matrix it was given.", "quantifier": "all matrices, tolerances and numbers of iterations (the step: all sizes)", "why_tests_cant": "the program is never run by the test suite; the iteration is unbounded in the matrix and stops on a condition that tests one entry instead of all", "anchors": ["examples/eigenvalues.rs:40-67", "src/slices_methods.rs:check_elements"]}
{"id": "C84", "title": "The linear solver and the inverse program of examples/", "statement": "examples/solve_linear_system.rs prints the only solution x of a*x = b, and its verification a*x prints b; it prints nothing exactly when det(a) is within the tolerance of zero. examples/inverse.rs prints the inverse and the identity. On floats, the solution differs from the exact one by an explicit bound, and so does the verification.", "quantifier": "all sizes, all matrices and right-hand sides; all precisions for the bounds", "why_tests_cant": "never run by the test suite; one system out of infinitely many", "anchors": ["examples/solve_linear_system.rs:39-44", "examples/inverse.rs:37-40"]}
{"id": "C85", "title": "The quaternion and dual quaternion programs of examples/", "statement": "What the comments and outputs of the example programs claim: four quarter turns about one axis are the identity (quaternions.rs); Euler angles come back (quaternions.rs); the dual quaternions built from a homogeneous matrix, from rotation and translation and by composition are the same motion (dual_quaternions.rs); the screw parameters of a rotation about an axis with a translation along it are that axis, angle and distance (dual_quaternion_screw_parameters.rs); the homogeneous matrix and the dual quaternion transform a point alike (dual_quaternion_transform_point.rs).", "quantifier": "all rotation vectors, numbers of turns, Euler angles, translations, axes and points", "why_tests_cant": "the programs run one value each and are not part of the test suite", "anchors": ["examples/quaternions.rs:43-51", "examples/dual_quaternions.rs:36-49", "examples/dual_quaternion_screw_parameters.rs:37-41", "examples/dual_quaternion_transform_point.rs:40-48"]}
{"id": "C86", "title": "LU of a float matrix: accuracy and panics", "statement": "When lu() of a float matrix returns finite factors, every entry of the input is finite, the row exchanges satisfy k <= indx[k] < n, and every entry of L*U differs from that of the row-exchanged input (plus 1e-40 on the diagonal where a vanishing pivot was replaced) by at most ((1+u)^n - 1) (|L| |U|)_ij + n (1+u)^n eta (1 + |U_jj|), u the unit roundoff and eta half the smallest subnormal. lu() panics exactly when every entry of the first row is a zero or NaN.", "quantifier": "all float matrices of sizes 2 to 6, every precision and exponent range (f32, f64); the converted literal 1e-40 is assumed nonzero for the error bound", "why_tests_cant": "rounding errors depend on every pivot choice and every bit of the input; NaN and infinite entries are not exercised by the tests", "anchors": ["src/matrix2x2.rs:285-340", "src/matrix3x3.rs:157-210", "src/matrix4x4.rs:232-285", "src/matrix5x5.rs:319-372", "src/matrix6x6.rs:952-1005"]}
{"id": "C87", "title": "Rotations by float quaternions, whatever the magnitudes", "statement": "For every IEEE format, with no assumption on magnitudes: each finite component of a cross product, quaternion product, to_rotation matrix or rotated vector q*v is within ((1+u)^k - 1) times its magnitude plus (1+u)^k times a small multiple of eta of the exact value (k = 2, 4, 4, 7; u the unit roundoff, eta half the smallest subnormal). When normalize() of a quaternion not flagged normalized returns Some(b) and the computed norm is finite, every component of b is finite and within 5u (relative, plus eta) of the exact one and |b.b - 1| <= 9u; b.to_rotation() is finite with |R^T R - I| <= 44u entrywise and |det() - 1| <= 136u; and q*v is finite with | |b*v| - |v| | <= 211u |v| + 13 eta for every v with entries up to 2^(emax-9). For any quaternion with |b.b - 1| <= d <= 1/100 the bounds are 2.01d + 25u, 3.04d + 108u and (2.06d + 192u)|v| + 13 eta.", "quantifier": "all finite inputs; the normalization part for precision >= 11 and emax >= 4 precision (f32, f64)", "why_tests_cant": "rounding and underflow errors depend on every bit of the inputs; tests compare a few values with a tolerance", "anchors": ["src/vector3.rs:73-79", "src/quaternion.rs:116-129", "src/quaternion.rs:190-211", "src/quaternion.rs:276-289", "src/matrix3x3.rs:103-107"]}
{"id": "C88", "title": "The rotation tests on float matrices", "statement": "The homogeneous matrix of a quaternion just normalized in floating point passes the library's rotation tests: is_rotation_h accepts homogeneous_from_quaternion(b, p), and is_rotation accepts b.to_rotation(), for every b returned by normalize(); and both tests accept only rotations.", "quantifier": "all f32 and f64 quaternions with finite norm not flagged normalized, all translations up to 2^(emax-20)", "why_tests_cant": "the computed determinants of a matrix and of its square carry rounding errors that depend on every bit; the tests try a few angles", "anchors": ["src/utils.rs:42-57", "src/utils.rs:77-86", "src/quaternion.rs:116-129", "src/quaternion.rs:276-289", "src/transformations.rs:198-205", "src/transformations.rs:233-235"]}
{"id": "C89", "title": "QR factorization on floats", "statement": "When qr() of a float matrix returns Some((q, r)) with finite entries, q*r equals the input up to a small multiple of the rounding unit and the columns of q are orthonormal up to such a multiple.", "quantifier": "all float matrices of sizes 2..6 in every IEEE format", "why_tests_cant": "loss of orthogonality in Gram-Schmidt depends on the conditioning of the input; the tests factor a few well conditioned matrices", "anchors": ["src/matrix2x2.rs:119-138", "src/matrix3x3.rs:133-152", "src/matrix4x4.rs:207-226", "src/matrix5x5.rs:295-314", "src/matrix6x6.rs:926-946"]}
{"id": "C90", "title": "Float normalization yields unit vectors", "statement": "Normalizing a float slice of up to 100 elements, or a vector of the library, whose computed norm x is finite with 10^6 eta <= u x^2 (u the rounding unit, eta half the smallest positive float; for f64 any norm above 1e-149 qualifies) gives finite components whose sum of squares is within (9n/8 + 9/2) u of 1, each component within the stated relative error (plus eta) of the exact one.", "quantifier": "all float slices of length 1..100 and all vectors of sizes 2..6, every IEEE format with prec >= 11 and emax >= 4 prec, no other assumption on the magnitudes", "why_tests_cant": "the rounding errors of the sum of squares, the root and the divisions depend on every bit of the input", "anchors": ["src/slices_methods.rs:78-80", "src/slices_methods.rs:91-96", "src/vector2.rs:94-110", "src/vector3.rs:127-143", "src/vector4.rs:107-124", "src/vector5.rs:95-113", "src/vector6.rs:96-116"]}
{"id": "C91", "title": "Composing float rotations", "statement": "Multiplying n+1 float quaternions whose norms are within d of 1 gives finite components, a norm within 1.02(d + n(d + 9u)) of 1 and a distance of at most 9 n u (1+d)^n from the exact product of the same numbers, whatever n with (n+1)(d+9u) <= 1/100; to_rotation() of the product is orthogonal with determinant 1 up to such a bound; the matrix of a product is the product of the matrices up to 50u, and rotating a vector by a product is rotating it twice up to (9d + 650u)|v| + 45 eta. The results of normalize() qualify with d = 9u.", "quantifier": "all lists of float quaternions of any length, all vectors below 2^(emax-10), every IEEE format with prec >= 11 and emax >= 4 prec", "why_tests_cant": "drift accumulates over arbitrarily many products; the tests multiply two or three quaternions", "anchors": ["src/quaternion.rs:116-129", "src/quaternion.rs:190-211", "src/quaternion.rs:276-289"]}
{"id": "C92", "title": "Rigid motions undone on floats", "statement": "For a float rotation matrix whose columns are orthonormal up to d <= 1/100, a translation t and a point p below 2^(emax-10), moving p by homogeneous_from_rotation and moving the result back by homogeneous_inverse_transform gives finite numbers within (3d + 29u)|p| + 8u|t| + 30 eta of p; moving back first and forth afterwards gives p within (3.01d + 27u)|p - t| + 5u|t| + 26 eta when the rows are orthonormal too; homogeneous_inverse(M) * M is the identity up to d + 4.2u in the rotation block, 12u|t| + 10 eta in the translation column and exactly in the last row. to_rotation() of a quaternion with norm within d of 1 qualifies with 4.05d + 25u. homogeneous_inverse_transform gives a finite result whenever the exact result is finite.", "quantifier": "all finite float rotations, translations and points in range, every IEEE format with prec >= 11 and emax >= 4 prec", "why_tests_cant": "tests compare one transformed point at one precision; the bound covers all points and the overflow needs translations near the largest float", "anchors": ["src/transformations.rs:198-205", "src/transformations.rs:278-283", "src/transformations.rs:292-301"]}
{"id": "C93", "title": "Eigenvalues of 2x2 matrices on floats", "statement": "For a 2x2 matrix of finite floats in range (200 B^2 below 2^emax), with M the sum of the absolute entries and D the exact discriminant: real_eigenvals() is None only if D < 8.1 u M^2 + 11 eta and Some only if D >= -(8.1 u M^2 + 11 eta); a Some holds two finite numbers in decreasing order that satisfy the characteristic equation up to 7 u M^2 + (2M+4) eta and whose sum is the trace up to 5.1 u M + 8 u sqrt(eta) + 2 eta. A matrix of finite floats is given Some exactly when it has real eigenvalues, and they are numbers with a small relative error.", "quantifier": "all finite float 2x2 matrices in range, every IEEE format with prec >= 11 and emax >= 4 prec", "why_tests_cant": "tests look at a few well separated eigenvalues; the misses need eigenvalues closer than sqrt(u), entries whose squares overflow, or eigenvalues of very different size", "anchors": ["src/matrix2x2.rs:346-360"]}
{"id": "C94", "title": "Dual quaternion motions on floats", "statement": "Let D be the dual quaternion of a float rotation whose norm is within d <= 1/220 of 1 and of a translation t below 2^(emax-12). get_translation() of new_from_rot_trans (or new_from_array) gives finite numbers within (2.01d + 17u)|t| + 35 eta of t, within 36u|t| + 35 eta when the rotation was normalized on the way. get_translation(D1 * D2) is the first translation plus the second one rotated by the first rotation, up to (4.1d + 35u)(|t1| + |t2|) + 100 eta. inverse(D) exists, and D * inverse(D) and inverse(D) * D have a real part within 2.01d + 8.2u of one and a dual part of size at most 18u|t| + 44 eta. new_from_translation followed by get_translation is exact except for numbers below 2^(4-emax), where it is off by at most 2 eta. A product of two dual quaternions that is_normalized() accepts is accepted by is_normalized().", "quantifier": "all finite float rotations near unit norm and translations in range, every IEEE format with prec >= 11 and emax >= 4 prec", "why_tests_cant": "tests compare a few motions at one precision with a loose tolerance; the bound covers every motion and the rejected product needs a particular pair of rotations", "anchors": ["src/dual_quaternion.rs:125-129", "src/dual_quaternion.rs:160-170", "src/dual_quaternion.rs:302-334", "src/dual_quaternion.rs:336-351", "src/dual_quaternion.rs:423-427"]}
{"id": "C95", "title": "Rotation matrices to quaternions on floats", "statement": "Let m be a float 3x3 matrix whose entries are within e of a rotation matrix r. from_rotation(m) has finite components, each within 3.12e + 11.6u of the corresponding component of a unit quaternion whose exact rotation matrix is r, in all four branches. Converting back, to_rotation(from_rotation(m)) has every entry within 15e + 52u of m. For a quaternion q whose norm is within d of 1, from_rotation(to_rotation(q)) is q or -q up to 7.3d + 25u in every component. DualQuaternion::new_from_homogeneous of a matrix with such a rotation part does not panic, its real part has a norm within 9u of 1 and is within 9.4e + 41u of that unit quaternion, and get_translation() gives the last column up to 36u|t| + 35 eta.", "quantifier": "all finite float matrices near a rotation and all finite float quaternions near unit norm, every IEEE format with prec >= 11 and emax >= 4 prec", "why_tests_cant": "the conversion has four branches chosen by comparing rounded entries; tests visit some of them at a few rotations and cannot bound the error near the branch boundaries", "anchors": ["src/quaternion.rs:116-128", "src/quaternion.rs:242-266", "src/quaternion.rs:276-289", "src/dual_quaternion.rs:376-382"]}
{"id": "C96", "title": "Rotations built from angles on floats", "statement": "Suppose the platform's sine and cosine are within e of the exact values at the angles used. Distances below are roots of sums of squared differences. rotx, roty and rotz are within 2e of the exact rotations; euler_to_rotation is within 6.1e + 18.7u of the product of exact rotations its sequence names (every sequence but YZX); from_euler_angles is within 4.3e + 4.5u of a unit quaternion of the same rotation, and the matrices of the two routes agree entrywise within 15e + 32u. For a vector v whose norm neither overflows nor is tiny: Quaternion::rotation is within 1.42e + 5u of a unit quaternion of the rotation by theta about v/|v|; rotation_from_axis_angle of the normalized vector is within 2.9e + 66u of that rotation; the two agree entrywise within 6e + 81u; rotation_norm_encoded is within 1.42e + 2u|v| + 5u; matrix_exponential(skew_from_vec(v)) is within 2.9e + 8.2u|v| + 66u of the true matrix exponential, which is a rotation. Multiplying such matrices adds their distances plus 9.3u per product.", "quantifier": "all finite float angles and vectors, every pair of sine and cosine functions meeting the stated error at the angles used, every IEEE format with prec >= 11 and emax >= 4 prec", "why_tests_cant": "a test compares a few angles with a tolerance; it cannot bound the error over all angles and axes, nor for every math library", "anchors": ["src/transformations.rs:79-149", "src/transformations.rs:310-315", "src/transformations.rs:408-434", "src/quaternion.rs:116-128", "src/quaternion.rs:298-337"]}
{"id": "C97", "title": "Chains of rigid motions on floats", "statement": "Call a float 4x4 matrix within (E, D) of a rigid motion A when its last row is exactly 0 0 0 1, its rotation block is within E and its last column within D of those of A (roots of sums of squared differences). The product of matrices within (E1, D1) of A1 and (E2, D2) of A2 is within (E1 + E2 + E1 E2 + 12.3u, D1 + D2 + E1(|t2| + D2) + 7u(|t1| + D1 + |t2| + D2) + 9 eta) of A1 A2. A product of n + 1 matrices, each within (E, D) and of reach at most L, is within E + n(1.01E + 12.3u) in rotation and (n+1)(1.03D + 10 eta) + (n+1)^2 (E + 10u) L in translation. Applying such a matrix to a finite point p gives a fourth component of exactly 1 and an error of at most D + E|p| + 7u(|t| + D + |p|) + 9 eta. homogeneous_inverse keeps E and gives D + (E + 5.3u)(|t| + D) + 7 eta. homogeneous_from_rotation keeps both errors. to_homogeneous of a dual quaternion built from a rotation within E of a unit quaternion and a vector t is within (6.03E + 12.3u, (2.01E + 17u)|t| + 35 eta), and new_from_homogeneous followed by to_homogeneous is within (114E + 507u, D + 36u(|t| + D) + 35 eta). Nothing overflows.", "quantifier": "all float matrices within stated small distances of a rigid motion, chains of every length while the accumulated error stays below 1/100 and the reach below 2^(emax-10), every IEEE format with prec >= 11 and emax >= 4 prec", "why_tests_cant": "a test multiplies a few joints of one arm; it cannot bound the drift of an arbitrary chain, nor show that the last row never degrades", "anchors": ["src/matrix4x4.rs:605-664", "src/matrix4x4.rs:702-729", "src/transformations.rs:198-205", "src/transformations.rs:263-283", "src/dual_quaternion.rs:154-157", "src/dual_quaternion.rs:376-382", "src/dual_quaternion.rs:416-427"]}
{"id": "C98", "title": "Euler angles of float rotations", "statement": "On floats, the angles that rotation_to_euler (or Quaternion::to_euler_angles) extracts from a matrix that is a rotation up to rounding give, through euler_to_rotation, the same rotation up to a few roundings. This is false near gimbal lock: with every math library accurate to 2.1u there is a quaternion of length 1 up to u whose angles describe a rotation that differs by more than 0.1 in an entry. What holds: let the matrix be within E of a rotation r (root of the sum of squared differences), let w be the cosine of the pitch of r, and let sine, cosine, atan2 and pi/2 be accurate to e. If w >= 20 (E + u + e) the gimbal lock branch is not taken and the rebuilt float matrix is within 9E/w + 29u + 13e of r. If the gimbal lock test succeeds it is within 18E + 125u + 26e of r. For a quaternion within E of a unit quaternion the first bound reads (55E + 111u)/w + 29u + 13e. Nothing overflows and no NaN appears.", "quantifier": "all float matrices and quaternions within the stated distance of a rotation, every math library with the stated accuracy, every IEEE format with prec >= 11 and emax >= 4 prec (the counterexample for f64)", "why_tests_cant": "round-trip tests use angles far from gimbal lock; the loss of accuracy grows as 1/w and only shows within a few hundred roundings of the singularity, where random tests never land", "anchors": ["src/transformations.rs:163-186", "src/quaternion.rs:533-535", "src/transformations.rs:121-150", "src/utils.rs:44-62"]}
{"id": "C99", "title": "Logarithm of float rotations", "statement": "On floats, matrix_log of a matrix that is a rotation up to rounding is the logarithm of that rotation up to a small multiple of the rounding error. This is false at both ends. There is a float matrix within 4u of a half turn (every entry correctly rounded) whose computed logarithm is the zero matrix with every math library accurate to 1e-9, so that matrix_log calls a half turn the identity. There is a float matrix within u of a rotation by 2^-27 whose computed logarithm is the zero matrix, an error of more than 10^7 u. What holds: let the matrix be within E of the rotation by t about the unit vector a (root of the sum of squared differences), 0 < t < pi, with sine, cosine and arc cosine accurate to e. If sin^2 t >= 100 (E + e + 5u), the regular branch is taken and the computed logarithm is within d = (16E + 13e + 60u)/sin^2 t of t times the cross-product matrix of a; if moreover d <= t/1000, matrix_exponential of the computed logarithm succeeds and is within 33 d/t of the rotation. Nothing overflows and no NaN appears.", "quantifier": "all float matrices within the stated distance of a rotation, every math library with the stated accuracy, every IEEE format with prec >= 11 and emax >= 4 prec (the counterexamples for f64)", "why_tests_cant": "tests take the logarithm of a few textbook rotations, whose trace is computed exactly or far from 3 and -1; whether a half turn is recognised depends on the last bit of its trace", "anchors": ["src/transformations.rs:446-471", "src/transformations.rs:423-434"]}
{"id": "C100", "title": "Powers and screw interpolation of float poses", "statement": "On floats, raising a dual quaternion to a power, and interpolating between two poses with screw_lerp, stays within a small multiple of the rounding error of the exact screw motion. This is false: pow takes the arc cosine of the real scalar part without clamping it, and every dual quaternion whose scalar part is a finite number beyond 1 in magnitude has a power of which all eight components are NaN. Rounding alone produces such a scalar part: the pose that new_from_rot_trans returns for the rotation (2, 1, 1, 0) and the translation (1, 2, 3) is finite and normalized, and screw_lerp from it to itself is NaN in every component, for every tau, although the exact result is that same pose. What holds of the rotation part: let the real part be within E of cos h + u sin h (root of the sum of squared differences, u a unit vector, 0 < h < pi), with sine, cosine and arc cosine accurate to e. If sin^2 h >= 100 (E + e + 5u), then for every exponent x with |x| <= 1 the real part of the power is finite and within (5E + 7e + 24u)/sin^2 h of cos xh + u sin xh. The dual part of the power is not bounded here.", "quantifier": "all float dual quaternions and exponents within the stated bounds, every math library with the stated accuracy, every IEEE format with prec >= 11 and emax >= 4 prec (the counterexample for f64)", "why_tests_cant": "tests interpolate between a few fixed poses; whether the product of a pose with its inverse rounds above 1 depends on the last bits of the pose", "anchors": ["src/dual_quaternion.rs:241-261", "src/dual_quaternion.rs:273-282"]}
{"id": "C101", "title": "Spherical interpolation of float quaternions", "statement": "On floats, slerp(a, b, t) of two quaternions that are unit up to rounding is within a small multiple of the rounding error of the point a fraction t along the shorter great circle arc from a to b or -b. This is false for quaternions that are near each other. There are two float quaternions, each within u of a unit quaternion, whose interpolation at t = 1 returns the first one, 10^7 u away from the second and from its opposite (the computed inner product is 1). There are two, each within u of a unit quaternion and with a negative inner product, whose interpolation is the zero quaternion for every t. There are two, with a positive inner product, whose interpolation at t = 1 is more than 0.00048 away from the second and its opposite, because two components change places. What holds: let a be within E of the unit quaternion A and b within E of plus or minus the point at angle h from A on a great circle, 0 < h < pi/2, with sine, cosine and arc cosine accurate to e, and let t be a float in [0, 1]. If sin h is at least twice the threshold 0.001, sin^2 h >= 100 (E + e + 5u) and cos h >= 3E + 6u, the computed interpolation is finite and within (12E + 5e + 60u)/sin^2 h of the point at angle t h on that great circle.", "quantifier": "all float quaternions and parameters within the stated bounds, every math library with the stated accuracy, every IEEE format with prec >= 11 and emax >= 4 prec (the counterexamples for f64)", "why_tests_cant": "tests interpolate between a few fixed quaternions and compare with a tolerance; the three wrong cases need quaternions closer than a thousandth, and the accuracy claim ranges over all inputs", "anchors": ["src/quaternion.rs:445-484"]}
{"id": "C102", "title": "Axis and angle of float quaternions", "statement": "On floats, axis_angle of a quaternion that is unit up to rounding returns, up to a small multiple of the rounding error, the axis and the angle of its rotation, and an axis whenever its vector part is not zero. The last part is false: for a quaternion with vector part (2^-600, 0, 0) the square underflows, the angle is zero and there is no axis. What holds, for a quaternion a within E of cos h + u sin h with |u| = 1 and 0 <= h <= pi, where sine and cosine are accurate to e and so is atan2 on the upper half plane: get_angle is finite and within 2.2E + 2e + 18u of 2h, for every h, also next to the identity and next to the half turn. If sin h >= 250 (E + e + 5u), then get_axis returns an axis within (5E + 3e + 25u)/sin h of the true one, whether or not the quaternion carries the normalized flag, and rotation(get_angle, get_axis) is a quaternion within 13E + 10e + 75u of the original rotation quaternion, a bound without the division by sin h.", "quantifier": "all float quaternions within the stated bounds, every math library with the stated accuracy, every IEEE format with prec >= 11 and emax >= 4 prec (the counterexample for f64)", "why_tests_cant": "tests extract the axis of a few fixed rotations and compare with a tolerance; the bound covers all axes and angles, and the failing case needs a vector part whose squares underflow", "anchors": ["src/quaternion.rs:276-289", "src/quaternion.rs:298-306", "src/quaternion.rs:339-358"]}
{"id": "C103", "title": "Exponential, logarithm and square root of float quaternions", "statement": "On floats, exp, ln and sqrt of quaternions that are unit up to rounding agree with the real ones up to a small multiple of the rounding error, the logarithm in particular with h u for the quaternion cos h + u sin h. The last part is false near -1: for (-1, 0, 2^-600, 0), next to cos h + j sin h with h just below pi, ln returns the vector (pi, 0, 0) and not (0, pi, 0). What holds, where sine and cosine are accurate to e, and so are atan2 on the upper half plane, the exponential up to 1/2 and the logarithm within 1/2 of 1: exp of a quaternion with real part below rho and vector part within tau of t d, |d| = 1, |t| <= 7/2, is within 4 tau + 2.5 rho + 5e + 62u of cos t + d sin t. For a quaternion a within E of cos h + u sin h, |u| = 1, 0 <= h <= pi, E <= 1/60: the real part of ln is below e + 1.12E + 7.2u and its vector part is within (15E + e + 110u)/sin h of h u. exp(ln(a)) is within 12E + 10e + 200u of cos h + u sin h for every h, also next to 1 and next to -1, and sqrt(a) * sqrt(a) is within 12E + 16e + 320u of it for every h. The quaternion may carry the normalized flag or not.", "quantifier": "all float quaternions within the stated bounds, every math library with the stated accuracy, every IEEE format with prec >= 11 and emax >= 4 prec (the counterexample for f64)", "why_tests_cant": "tests take the logarithm or the square root of a few fixed quaternions with a tolerance; the bounds cover all axes and angles including those where the code switches branches at epsilon, and the failing case needs a vector part whose squares underflow", "anchors": ["src/quaternion.rs:374-382", "src/quaternion.rs:391-402", "src/quaternion.rs:405-416", "src/quaternion.rs:419-423"]}
{"id": "C104", "title": "The exponential of float twists", "statement": "On floats, matrix_exponential6 of the matrix of a twist (w, v) is near the exact exponential of that matrix, a rigid motion. As stated this is false. Where |w| is below epsilon the rotation block of the result has a 1 at row 0, column 2, so its distance from every rotation matrix is at least 4/10, whatever w and v are. For small turns accuracy is lost: for w = (2^-27, 0, 0), v = (0, 1, 0) in f64, with the correctly rounded sine and cosine, some component of the translation is off by more than 10^6 u, because 1 - cos is computed by subtraction. What holds, where sine and cosine are accurate to e at the computed |w|, |w| <= 7, |w| is not below epsilon, its square does not underflow, and v is finite with |v| <= |w| 2^(emax-12): the function returns a matrix m with the last row (0, 0, 0, 1), the exact exponential A of the exact twist is a rigid motion, the rotation block of m is within 2.9e + 8.2u|w| + 66u of that of A in Frobenius norm, and the translation of m is within ((3e + 480u)|v| + 8 eta)/|w| + 24u|v| + 2 eta of that of A, eta half the smallest subnormal.", "quantifier": "all float twists within the stated bounds, every math library with the stated accuracy, every IEEE format with prec >= 11 and emax >= 4 prec (the counterexample for small turns for f64)", "why_tests_cant": "a test compares one or two fixed twists with a printed matrix; the bounds hold for all axes, angles up to 7 and linear velocities, the failing cases need a turn below epsilon or one so small that its cosine rounds to one", "anchors": ["src/transformations.rs:572-598", "src/transformations.rs:486-489", "src/transformations.rs:423-434"]}
{"id": "C105", "title": "The logarithm of float rigid motions", "statement": "On floats, matrix_log6 of a homogeneous matrix near a rigid motion A is near a twist matrix whose exact exponential is A. As stated this is false: in f64 there are a rigid motion A turning by a half turn and a float matrix with its rotation block within 4u of that of A and its translation exact, such that for every math library whose arc cosine, sine and cosine are accurate to 10^-9 the angular part of matrix_log6 is exactly zero, so that it is more than 2 away, in Frobenius norm, from the angular part of every twist whose exponential is A. What holds: let A turn by t about a unit axis a, 0 < t < pi, with any translation, and let the float matrix be within E of A in its rotation block and within D in its translation; let arc cosine, sine and cosine be accurate to e and the tangent have relative error at most e on the open first quadrant; let 100(E + e + 5u) <= sin^2 t, put d = (16E + 13e + 60u)/sin^2 t and let 10 d <= t, and let |translation| + D <= 2^(emax-12). Then there is an exact twist (t a, v) whose exponential is A, the result is finite with last row zero, its angular part is within d of that of the twist in Frobenius norm, and its linear part is within 6.1 d (|translation| + D) + 7.7 D + 7 eta of v, eta half the smallest subnormal.", "quantifier": "all float matrices near a rigid motion within the stated bounds, every math library with the stated accuracy, every IEEE format with prec >= 11 and emax >= 4 prec (the counterexample for f64)", "why_tests_cant": "a test takes one matrix with printed entries; the bound holds for all axes, angles and translations and grows towards the half turn, and the failing case needs a matrix whose computed angle rounds just above minus one while its antisymmetric part is zero", "anchors": ["src/transformations.rs:608-631", "src/transformations.rs:446-471", "src/transformations.rs:486-489"]}
{"id": "C106", "title": "The adjoint of float rigid motions", "statement": "On floats, adjoint of a homogeneous matrix within E of a rigid motion A in its rotation block (E <= 1/100, Frobenius norm) and within D in its translation never panics, has 36 finite entries and is near the exact adjoint of A: its upper right block is exactly zero, its lower right block repeats the upper left one bit for bit, both are within E of the rotation, and its lower left block is within K = 1.415 (D + E (|t| + D)) + 7.5 u (|t| + D) + 12 eta of [t]R in Frobenius norm, where t is the translation of A and |t| + D <= 2^(emax-10). Applied to a float twist (w, v) by the 6x6 matrix times vector product, when no entry overflows, the angular part of the result is within (E + 10.6 u)|w| + 10.5 eta of the exact one and the linear part within (E + 10.6 u)|v| + (K + 6.05 u (1.415 |t| + K))|w| + 10.5 eta.", "quantifier": "all float matrices near a rigid motion within the stated bounds, all float twists with finite image, every math library, every IEEE format with prec >= 11 and emax >= 4 prec", "why_tests_cant": "a test compares the 36 entries of one matrix; how the error of the lower left block and of a moved twist grows with the length of the translation holds for all motions and all twists", "anchors": ["src/transformations.rs:518-527", "src/transformations.rs:446-471", "src/matrix6x6.rs:1464-1499"]}
{"id": "C107", "title": "Planar motions, screw axes and quaternion derivatives on floats", "statement": "On floats, for sine and cosine accurate to e <= 1 at the angle a, and coordinates and displacements finite and at most 2^(emax-10) in magnitude: rot2(a) applied to (x, y) is finite and each entry is within (e + 2.01 u (1 + e))(|x| + |y|) + 2.1 eta of the exact rotation, and ksi(a, dx, dy) applied to (x, y, 1) is finite, has last entry exactly 1 and its other entries within e (|x| + |y|) + 3.02 u ((1 + e)(|x| + |y|) + |d|) + 3.1 eta of the exact motion, d being the displacement in that direction. screw_to_axis(q, s, h) copies s bit for bit, and every finite entry of its linear part is within ((1+u)^3 - 1) times the sum of the magnitudes of the three products, plus 3 (1+u)^3 eta, of q x s + h s. derivative(q, w), when w and the result are finite, is within K = (4.03 u |w| + 1.75 eta)|q| + 9 eta of (0, w) q / 2 in norm, and its inner product with q, which is zero in exact arithmetic, is at most |q| K.", "quantifier": "all float angles, points, displacements, screw parameters, quaternions and rates within the stated ranges, every math library with the stated accuracy at the angle used, every IEEE format with prec >= 11 and emax >= 4 prec", "why_tests_cant": "a test compares one angle, point or quaternion with printed digits; the error bound, the exact last entry and the near tangency of the derivative hold for all of them", "anchors": ["src/transformations.rs:67-71", "src/transformations.rs:339-346", "src/transformations.rs:539-542", "src/quaternion.rs:492-496"]}
