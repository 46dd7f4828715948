{"id": "C01", "title": "Matrix product is composition", "statement": "Matrix3::mul is associative, has Matrix3() as two-sided identity, distributes over add, and applying a product to a vector is the same as applying the right factor and then the left one. Each entry of a product is the dot product of a row of the left factor and a column of the right one.", "quantifier": "for all 3x3 matrices and all vectors over the reals (entry formula: bit for bit, for every arithmetic including floats)", "why_tests_cant": "nine-fold input space; tests check a handful of matrices to a tolerance", "anchors": ["include/colorsystem.hpp: Matrix3::mul", "include/colorsystem.hpp: Matrix3::apply", "include/colorsystem.hpp: Matrix3::add", "include/colorsystem.hpp: Matrix3::row", "include/colorsystem.hpp: Matrix3::col", "include/colorsystem.hpp: Vector3::dot"]}
{"id": "C02", "title": "Matrix inverse", "statement": "If det(m) is non-zero then m.invert() is a left and a right inverse of m and inverting twice gives m back; if det(m) is zero then no entry of m.invert() is a finite number, over the reals and in float arithmetic alike.", "quantifier": "for all 3x3 matrices", "why_tests_cant": "singular and nearly singular inputs form a measure-zero set that sampled inputs never hit", "anchors": ["include/colorsystem.hpp: Matrix3::invert", "include/colorsystem.hpp: Matrix3::det", "include/colorsystem.hpp: Matrix3::mul"]}
{"id": "C03", "title": "Determinant laws", "statement": "det is multiplicative, invariant under transpose, scales with the cube of a scalar factor, equals the product of the diagonal for diag matrices and is non-zero exactly when some matrix multiplies m to the identity.", "quantifier": "for all 3x3 matrices over the reals", "why_tests_cant": "algebraic identity over nine variables", "anchors": ["include/colorsystem.hpp: Matrix3::det", "include/colorsystem.hpp: Matrix3::transpose", "include/colorsystem.hpp: Matrix3::diag"]}
{"id": "C04", "title": "Index conventions of rows, columns and transpose", "statement": "row(i) and col(i) return the three entries of that row or column for i in 0..2 and are undefined behaviour for every other index, as is operator[] outside 0..8 (0..2 for vectors); transpose swaps rows with columns and is an involution; fromArray reads exactly nine entries in row order.", "quantifier": "for all matrices and all integer indices", "why_tests_cant": "index space is unbounded", "anchors": ["include/colorsystem.hpp: Matrix3::row", "include/colorsystem.hpp: Matrix3::col", "include/colorsystem.hpp: Matrix3::transpose", "include/colorsystem.hpp: Matrix3::operator[]", "include/colorsystem.hpp: Matrix3::fromArray"]}
{"id": "C05", "title": "Crosstalk matrices", "statement": "crosstalk(r) keeps every neutral (v,v,v) fixed, and crosstalkInvert(r) is its two-sided inverse whenever r differs from 1/3; for r = 1/3 it has no finite entry.", "quantifier": "for all real r", "why_tests_cant": "continuum of r; r=1/3 is a single point", "anchors": ["include/colorsystem.hpp: Matrix3::crosstalk", "include/colorsystem.hpp: Matrix3::crosstalkInvert"]}
{"id": "C06", "title": "Rounding error of applying a matrix", "statement": "In binary32, every component of Matrix3::apply differs from the exact row-by-vector product by at most a first-order multiple of the unit roundoff times the sum of absolute products plus an underflow term, provided no intermediate overflows.", "quantifier": "for all finite float matrices and vectors whose absolute row sums stay below 2^126", "why_tests_cant": "2^384 float inputs", "anchors": ["include/colorsystem.hpp: Matrix3::apply"]}
{"id": "C07", "title": "clip and positive", "statement": "clip(l,h) with l <= h returns components in [l,h] for every float input including NaN and infinities, leaves components already inside unchanged and is idempotent; positive() never returns a negative or NaN component; hasNegative() is true exactly when some component is below zero.", "quantifier": "for all float triples, all float bounds l <= h", "why_tests_cant": "NaN/inf/signed zero combinations", "anchors": ["include/colorsystem.hpp: Tristimulus::clip", "include/colorsystem.hpp: Tristimulus::positive", "include/colorsystem.hpp: Tristimulus::hasNegative", "include/colorsystem.hpp: Tristimulus::min", "include/colorsystem.hpp: Tristimulus::max"]}
{"id": "C08", "title": "XYZ to Yxy and back", "statement": "fromYxy(toYxy(XYZ)) = XYZ whenever |X+Y+Z| >= 1e-8 and the resulting |y| >= 1e-8; toYxy(fromYxy(Yxy)) = Yxy whenever |y| >= 1e-8 and |Y/y| >= 1e-8. The luminance component is preserved exactly for every input, in float arithmetic too.", "quantifier": "for all real triples meeting the guards; luminance: for all floats", "why_tests_cant": "guards cut the space at thresholds that random tests do not straddle", "anchors": ["include/colorsystem.hpp: Tristimulus::toYxy", "include/colorsystem.hpp: Tristimulus::fromYxy"]}
{"id": "C09", "title": "Black maps to the D65 chromaticity", "statement": "When |X+Y+Z| < 1e-8, toYxy returns chromaticity (0.3127, 0.3290) and no division happens; when |y| < 1e-8 fromYxy returns X = Z = 0. Neither conversion ever divides by zero: the results are finite for every finite real input.", "quantifier": "for all real triples", "why_tests_cant": "division-by-zero cases are isolated points", "anchors": ["include/colorsystem.hpp: Tristimulus::toYxy", "include/colorsystem.hpp: Tristimulus::fromYxy"]}
{"id": "C10", "title": "XYZ to Yuv and back", "statement": "fromYuv(toYuv(XYZ)) = XYZ whenever the Yxy guards hold and X+15Y+3Z is non-zero, toYuv(fromYuv(Yuv)) = Yuv under the corresponding guards, and u, v are the CIE 1960 coordinates 4X/(X+15Y+3Z), 6Y/(X+15Y+3Z).", "quantifier": "for all real triples meeting the guards", "why_tests_cant": "continuum of inputs", "anchors": ["include/colorsystem.hpp: Tristimulus::toYuv", "include/colorsystem.hpp: Tristimulus::fromYuv", "include/colorsystem.hpp: Tristimulus::YxyToYuv", "include/colorsystem.hpp: Tristimulus::YuvToYxy"]}
{"id": "C11", "title": "Yuv is the CIE 1976 u'v' the README advertises", "statement": "toYuv returns the CIE 1976 UCS coordinates u' = 4X/(X+15Y+3Z), v' = 9Y/(X+15Y+3Z).", "quantifier": "for all XYZ with X+15Y+3Z non-zero", "why_tests_cant": "tests only round-trip the coordinates", "anchors": ["include/colorsystem.hpp: Tristimulus::toYuv", "include/colorsystem.hpp: Tristimulus::v_from_xy"]}
{"id": "C12", "title": "The constexpr square root terminates and is accurate", "statement": "util::sqrtf returns for every float argument (the recursion never cycles), gives NaN exactly for negative, infinite and NaN arguments, and for every finite x >= 0 returns one of the two floats that bracket the exact square root.", "quantifier": "for all 2^32 floats", "why_tests_cant": "a Newton iteration in floating point can enter a 2-cycle; only exhaustive runs could exclude it", "anchors": ["include/colorsystem.hpp: util::sqrtf", "include/colorsystem.hpp: util::Detail::sqrtNewtonRaphsonF"]}
{"id": "C13", "title": "The constexpr square root is correctly rounded", "statement": "util::sqrtf(x) equals the correctly rounded IEEE square root of x.", "quantifier": "for all finite floats x >= 0", "why_tests_cant": "needs all 2^31 arguments", "anchors": ["include/colorsystem.hpp: util::sqrtf"]}
{"id": "C14", "title": "Hue normalisation", "statement": "Over the reals mod360 returns for every angle, with a result in [0,360] that differs from the argument by a multiple of 360. In float arithmetic it returns a value in [0,360] for every finite argument with |r| <= 2^33 (unchanged when already inside; below 2^27 it differs from the argument by a multiple of 360, exactly for non-negative arguments and within 2^-16 for negative ones), returns NaN for NaN, and never returns for infinite arguments nor for finite ones of magnitude above 2^33.", "quantifier": "for all reals; for all floats in the stated ranges", "why_tests_cant": "non-termination cannot be observed by a test", "anchors": ["include/colorsystem.hpp: Tristimulus::mod360"]}
{"id": "C15", "title": "XYZ to CIELAB and back", "statement": "With a white point whose components are positive, fromCIELAB(toCIELAB(t,w),w) = t whenever every component of t is at most the corresponding component of w (negative components included).", "quantifier": "for all real t and w meeting the guard", "why_tests_cant": "the curve is piecewise with a switch at 216/24389", "anchors": ["include/colorsystem.hpp: Tristimulus::toCIELAB", "include/colorsystem.hpp: Tristimulus::fromCIELAB", "include/colorsystem.hpp: Tristimulus::CIELAB_curve", "include/colorsystem.hpp: Tristimulus::CIELAB_decurve"]}
{"id": "C16", "title": "CIELAB of the white point and range of L*", "statement": "The white point itself maps to (100,0,0), greys t = k w map to a* = b* = 0, L* is a non-decreasing function of Y, at most 100, and the curve is continuous at the linear/cube-root switch.", "quantifier": "for all real inputs and positive whites", "why_tests_cant": "continuity and monotonicity quantify over pairs of reals", "anchors": ["include/colorsystem.hpp: Tristimulus::toCIELAB", "include/colorsystem.hpp: Tristimulus::CIELAB_curve"]}
{"id": "C17", "title": "CIELAB round trip for colours brighter than white", "statement": "fromCIELAB(toCIELAB(t,w),w) = t also for components of t above the white point (specular highlights, HDR values).", "quantifier": "for all real t and positive w", "why_tests_cant": "tests use in-range patches", "anchors": ["include/colorsystem.hpp: Tristimulus::toCIELAB", "include/colorsystem.hpp: Tristimulus::fromCIELAB"]}
{"id": "C18", "title": "RGB to HSV and back", "statement": "fromHSV(toHSV(rgb)) = rgb for every rgb whose largest component is non-zero, and for black; the call always terminates.", "quantifier": "for all real triples", "why_tests_cant": "six sectors and their boundaries", "anchors": ["include/colorsystem.hpp: Tristimulus::toHSV", "include/colorsystem.hpp: Tristimulus::fromHSV", "include/colorsystem.hpp: Tristimulus::mod360"]}
{"id": "C19", "title": "Ranges of HSV", "statement": "For every rgb with non-negative components toHSV returns hue in [0,360], saturation in [0,1] and value equal to the largest component; fromHSV with s in [0,1] and v >= 0 returns components in [0,v] with maximum v, for every hue.", "quantifier": "for all real inputs", "why_tests_cant": "hue wraps around, boundaries at multiples of 60", "anchors": ["include/colorsystem.hpp: Tristimulus::toHSV", "include/colorsystem.hpp: Tristimulus::fromHSV"]}
{"id": "C20", "title": "CCT with Duv offset", "statement": "With an exact square root, the chromaticity returned by fromCCT(T,dUV,Y) lies at CIE 1960 distance |dUV| from the approximated Planckian point of temperature T, perpendicular to the chord to the point at T-1, and fromCCT(T,0,Y) = fromCT(T,Y), whenever the two points differ.", "quantifier": "for all real T, dUV, Y meeting the guards", "why_tests_cant": "geometric relation over a continuum", "anchors": ["include/colorsystem.hpp: Tristimulus::fromCCT", "include/colorsystem.hpp: Tristimulus::fromCT", "include/colorsystem.hpp: Tristimulus::CCT_x_approx", "include/colorsystem.hpp: Tristimulus::CCT_y_approx"]}
{"id": "C21", "title": "Planckian locus cubic spline", "statement": "fromPlanckianLocus follows the published three-piece cubic spline (Kim et al.): below 2222 K, between 2222 K and 4000 K and above 4000 K each piece uses its own coefficients, so that y is (nearly) continuous at 2222 K and 4000 K.", "quantifier": "for all T in [1667,25000]", "why_tests_cant": "tests do not compare against the published coefficients", "anchors": ["include/colorsystem.hpp: Tristimulus::fromPlanckianLocus"]}
{"id": "C22", "title": "A gamut maps full RGB to its white and primaries to their chromaticities", "statement": "For a gamut built from chromaticities of three primaries and a white (non-collinear primaries, all y components of white non-negligible), toXYZ(1,1,1) is the white with Y = 1 and toXYZ of each unit vector has the chromaticity of that primary.", "quantifier": "for all real chromaticities meeting the guards", "why_tests_cant": "continuum of gamuts", "anchors": ["include/colorsystem.hpp: Gamut::Gamut", "include/colorsystem.hpp: Gamut::fromPrimaries", "include/colorsystem.hpp: Gamut::primMat", "include/colorsystem.hpp: Gamut::mulDiag", "include/colorsystem.hpp: Gamut::toXYZ"]}
{"id": "C23", "title": "Gamut round trip", "statement": "fromXYZ(toXYZ(t)) = t and toXYZ(fromXYZ(t)) = t for every gamut with a non-singular matrix, and all ten predefined gamuts are non-singular.", "quantifier": "for all real triples; for all non-singular gamuts", "why_tests_cant": "continuum", "anchors": ["include/colorsystem.hpp: Gamut::toXYZ", "include/colorsystem.hpp: Gamut::fromXYZ", "include/colorsystem.hpp: AdobeRGB", "include/colorsystem.hpp: Rec709", "include/colorsystem.hpp: Rec2020", "include/colorsystem.hpp: DCI_P3", "include/colorsystem.hpp: S_Gamut", "include/colorsystem.hpp: S_Gamut3_Cine", "include/colorsystem.hpp: ACEScg", "include/colorsystem.hpp: ACES2065", "include/colorsystem.hpp: LMS", "include/colorsystem.hpp: XYZ"]}
{"id": "C24", "title": "Gamut primaries can be read back", "statement": "primaryRed/Green/Blue of a gamut built from chromaticities return exactly those chromaticities (x,y,1-x-y), and primaryWhite returns its white.", "quantifier": "for all real chromaticities meeting the guards of C22", "why_tests_cant": "continuum", "anchors": ["include/colorsystem.hpp: Gamut::primaryRed", "include/colorsystem.hpp: Gamut::primaryGreen", "include/colorsystem.hpp: Gamut::primaryBlue", "include/colorsystem.hpp: Gamut::primaryWhite", "include/colorsystem.hpp: Gamut::primaryMatrix"]}
{"id": "C25", "title": "Gamut conversion", "statement": "GamutConvert(a,b) is decoding in a followed by encoding in b; GamutConvert(a,a) is the identity, GamutConvert(b,c)*GamutConvert(a,b) = GamutConvert(a,c) and GamutConvert(a,b) is inverse to GamutConvert(b,a); white (1,1,1) is preserved between gamuts built with the same white.", "quantifier": "for all non-singular gamuts", "why_tests_cant": "triples of gamuts", "anchors": ["include/colorsystem.hpp: GamutConvert"]}
{"id": "C26", "title": "Bradford adaptation", "statement": "Bradford(w,w) is the identity, Bradford(s,d) maps s to d, Bradford(s,d) and Bradford(d,s) are inverse and Bradford(b,c)*Bradford(a,b) = Bradford(a,c), whenever no cone response of the whites involved is zero.", "quantifier": "for all real white points with non-zero cone responses", "why_tests_cant": "continuum", "anchors": ["include/colorsystem.hpp: Bradford", "include/colorsystem.hpp: LMS"]}
{"id": "C27", "title": "Standard illuminants", "statement": "Every standard illuminant constant agrees with the published CIE 1931 2-degree white point to within 0.0015 in X and Z.", "quantifier": "for the twelve constants", "why_tests_cant": "no test compares them with an independent table", "anchors": ["include/colorsystem.hpp: Illuminant_A", "include/colorsystem.hpp: Illuminant_B", "include/colorsystem.hpp: Illuminant_C", "include/colorsystem.hpp: Illuminant_D50", "include/colorsystem.hpp: Illuminant_D65"]}
{"id": "C28", "title": "BT.709 transfer function", "statement": "toScene(BT709, toScreen(BT709, v)) = v for every v in [0,1]; outputs of both directions always lie in [0,1] and encoding is non-decreasing.", "quantifier": "for all reals in [0,1]; ranges: all reals", "why_tests_cant": "piecewise with a power; switch point", "anchors": ["include/colorsystem.hpp: OTF::Y_to_BT709", "include/colorsystem.hpp: OTF::BT709_to_Y", "include/colorsystem.hpp: OTF::toScreen", "include/colorsystem.hpp: OTF::toScene"]}
{"id": "C29", "title": "BT.709 decode then encode", "statement": "toScreen(BT709, toScene(BT709, v)) = v for every v in [0,1], and decoding is non-decreasing.", "quantifier": "for all reals in [0,1]", "why_tests_cant": "the two switch points do not correspond exactly", "anchors": ["include/colorsystem.hpp: OTF::Y_to_BT709", "include/colorsystem.hpp: OTF::BT709_to_Y"]}
{"id": "C30", "title": "sRGB transfer function", "statement": "Both directions of the sRGB curve have range [0,1], decoding is non-decreasing, and they invert each other exactly on [0,1] outside a small interval at the switch point (v in [0.0031308, 0.0031309) when encoding first, c in [0.040449936, 0.04045) when decoding first); encoding then decoding is within 2e-7 of the identity on all of [0,1].", "quantifier": "for all reals", "why_tests_cant": "two switch constants rounded independently", "anchors": ["include/colorsystem.hpp: OTF::Y_to_sRGB", "include/colorsystem.hpp: OTF::sRGB_to_Y"]}
{"id": "C31", "title": "sRGB exact round trip", "statement": "toScene(SRGB, toScreen(SRGB, v)) = v for every v in [0,1], and encoding is non-decreasing.", "quantifier": "for all reals in [0,1]", "why_tests_cant": "violations live in an interval of width about 3e-9", "anchors": ["include/colorsystem.hpp: OTF::Y_to_sRGB", "include/colorsystem.hpp: OTF::sRGB_to_Y"]}
{"id": "C32", "title": "PQ (ST 2084) transfer function", "statement": "toScene(ST2084, toScreen(ST2084, v)) = v for every v in [0,100] and toScreen(ST2084, toScene(ST2084, c)) = c for every code value c with c1^m2 < c <= 1; smaller codes in [0,c1^m2] decode to 0; encoding is non-decreasing with range [0,1].", "quantifier": "for all reals in the ranges", "why_tests_cant": "nested powers; clamps at both ends", "anchors": ["include/colorsystem.hpp: OTF::Y_to_ST2084", "include/colorsystem.hpp: OTF::ST2084_to_Y"]}
{"id": "C33", "title": "HLG transfer function", "statement": "toScene(HLG, toScreen(HLG, v)) = v for every v >= 0; toScreen(HLG, toScene(HLG, c)) = c for every c >= 0 outside the interval [0.5, 0.500000001), inside which the error is at most 1e-9; encoding is non-decreasing.", "quantifier": "for all reals >= 0", "why_tests_cant": "knee constants are rounded to 8 digits", "anchors": ["include/colorsystem.hpp: OTF::Y_to_HLG", "include/colorsystem.hpp: OTF::HLG_to_Y"]}
{"id": "C34", "title": "S-Log and S-Log2 transfer functions", "statement": "toScene(SLOG, toScreen(SLOG, v)) = v for every v in [0,10]; toScene(SLOG2, toScreen(SLOG2, v)) = v for every v >= 1e-15 and is within 1e-15 of v for 0 <= v < 1e-15; both encodings are increasing there. Outside [0,10] S-Log decodes to the nearest end, and S-Log2 decodes the code of a negative value to 0.", "quantifier": "for all reals in the ranges", "why_tests_cant": "continuum", "anchors": ["include/colorsystem.hpp: OTF::Y_to_SLog", "include/colorsystem.hpp: OTF::SLog_to_Y", "include/colorsystem.hpp: OTF::Y_to_SLog2", "include/colorsystem.hpp: OTF::SLog2_to_Y"]}
{"id": "C35", "title": "S-Log3 transfer function", "statement": "toScene(SLOG3, toScreen(SLOG3, v)) = v for every v above the linear segment (0.01125), as for the other curves, and the encoded 18% grey is 420/1023 as Sony specifies.", "quantifier": "for all reals v > 0.01125", "why_tests_cant": "the repository has no S-Log3 test", "anchors": ["include/colorsystem.hpp: OTF::Y_to_SLog3", "include/colorsystem.hpp: OTF::SLog3_to_Y"]}
{"id": "C36", "title": "Pure gamma and linear", "statement": "toScene(GAMMA,toScreen(GAMMA,v,g),g) = v for all v >= 0 and g > 0; LINEAR returns its argument bit for bit; every transfer function acts on the three channels independently and identically.", "quantifier": "for all real v >= 0, g > 0; channel independence for every arithmetic", "why_tests_cant": "continuum", "anchors": ["include/colorsystem.hpp: OTF::gamma", "include/colorsystem.hpp: OTF::degamma", "include/colorsystem.hpp: OTF::toScreen", "include/colorsystem.hpp: OTF::toScene"]}
{"id": "C37", "title": "Oklab round trip", "statement": "OKLAB_to_XYZ(XYZ_to_OKLAB(xyz)) = xyz and XYZ_to_OKLAB(OKLAB_to_XYZ(lab)) = lab for every input, negative components included; scaling XYZ by k^3 scales Lab by k.", "quantifier": "for all real triples", "why_tests_cant": "continuum; cube roots of negative numbers", "anchors": ["include/colorsystem.hpp: XYZ_to_OKLAB", "include/colorsystem.hpp: OKLAB_to_XYZ"]}
{"id": "C38", "title": "ICtCp of neutrals and range", "statement": "A colour whose three cone responses are equal has Ct = Cp = 0 and round-trips exactly through ICtCp for luminance in [0,100]; I always lies in [0,1].", "quantifier": "for all real XYZ", "why_tests_cant": "continuum", "anchors": ["include/colorsystem.hpp: XYZ_to_ICtCp", "include/colorsystem.hpp: ICtCp_to_XYZ"]}
{"id": "C39", "title": "Euclidean colour differences are metrics", "statement": "Delta::E76, Delta::UV and Delta::ICtCp are non-negative, symmetric, zero for equal arguments and satisfy the triangle inequality; E76 is zero only for equal colours. Symmetry of E76 and UV also holds bit for bit in float arithmetic.", "quantifier": "for all real triples; symmetry for all floats", "why_tests_cant": "pairs and triples of colours", "anchors": ["include/colorsystem.hpp: Delta::E76", "include/colorsystem.hpp: Delta::UV", "include/colorsystem.hpp: Delta::ICtCp"]}
{"id": "C40", "title": "CIEDE2000 is a well-defined symmetric difference", "statement": "Delta::E00 with positive weights never takes the root of a negative number or divides by zero, is non-negative, symmetric, and zero exactly for equal colours.", "quantifier": "for all real Lab pairs", "why_tests_cant": "hue wrap-around cases and the rotation term", "anchors": ["include/colorsystem.hpp: Delta::E00"]}
{"id": "C41", "title": "Delta::E00 is the published CIEDE2000", "statement": "Delta::E00 returns the value of the CIEDE2000 formula as published by the CIE, whose mean hue, when the hue difference exceeds 180 degrees, is (h1+h2+360)/2 if h1+h2 < 360 and (h1+h2-360)/2 otherwise.", "quantifier": "for all real Lab pairs and positive weights", "why_tests_cant": "the mean-hue cases only matter on a quarter of hue pairs, and then in the fifth digit", "anchors": ["include/colorsystem.hpp: Delta::E00"]}
{"id": "C42", "title": "Memory stream invariant", "statement": "After any sequence of calls of the stream operations (bulk writes below 2 GiB each) that does not hit undefined behaviour or an assertion, the cursor lies between 0 and the buffer size and every buffer element is a byte; only seeking and aligning can fail an assertion, in particular the one inside putUint8 never fails.", "quantifier": "for all operation sequences", "why_tests_cant": "unbounded histories", "anchors": ["include/colorsystem.hpp: MemoryStream::fseek", "include/colorsystem.hpp: MemoryStream::getUint8", "include/colorsystem.hpp: MemoryStream::putUint8", "include/colorsystem.hpp: MemoryStream::read", "include/colorsystem.hpp: MemoryStream::write", "include/colorsystem.hpp: MemoryStream::align"]}
{"id": "C43", "title": "Typed values written at the end of a stream are read back", "statement": "Appending any list of typed values (8/16/32/64-bit, signed or unsigned, float, double) with one byte order, seeking back to the start of the appended region and reading with the same byte order returns the same values, leaves the cursor at the end and leaves the older bytes untouched.", "quantifier": "for all value lists, both byte orders, all initial contents with total size below 2^31", "why_tests_cant": "unbounded lists and histories", "anchors": ["include/colorsystem.hpp: MemoryStream::putUint16", "include/colorsystem.hpp: MemoryStream::putInt64", "include/colorsystem.hpp: MemoryStream::getUint16", "include/colorsystem.hpp: MemoryStream::getInt64", "include/colorsystem.hpp: MemoryStream::putFloat", "include/colorsystem.hpp: MemoryStream::getDouble"]}
{"id": "C44", "title": "Byte order on the wire", "statement": "An appended k-byte integer occupies exactly k bytes: its base-256 digits, most significant first for BIG and least significant first for LITTLE; reading with the opposite byte order yields the value with its bytes reversed. setReadEndian affects only later reads and setWriteEndian only later writes.", "quantifier": "for all values of each width", "why_tests_cant": "2^64 values", "anchors": ["include/colorsystem.hpp: MemoryStream::putUint32", "include/colorsystem.hpp: MemoryStream::putUint64", "include/colorsystem.hpp: MemoryStream::getUint64"]}
{"id": "C45", "title": "Overwriting in place", "statement": "Seeking back and writing a multi-byte value over existing bytes replaces exactly those bytes and advances the cursor past them.", "quantifier": "for all streams, positions and values", "why_tests_cant": "tests only append", "anchors": ["include/colorsystem.hpp: MemoryStream::putUint8", "include/colorsystem.hpp: MemoryStream::putUint32"]}
{"id": "C46", "title": "Back-patching pointers", "statement": "putPointer32 followed by any appended data and adjustPointer32 at the returned position stores the stream size at that moment into the reserved bytes, in the write byte order, changing nothing else; likewise for 64 bits.", "quantifier": "for all streams and appended data", "why_tests_cant": "unbounded histories", "anchors": ["include/colorsystem.hpp: MemoryStream::putPointer32", "include/colorsystem.hpp: MemoryStream::adjustPointer32", "include/colorsystem.hpp: MemoryStream::putPointer64", "include/colorsystem.hpp: MemoryStream::adjustPointer64"]}
{"id": "C47", "title": "align", "statement": "align(a) with a > 0 moves the cursor forward to the next multiple of a (no move when already aligned) when that lies inside the stream, and otherwise hits the assertion (or overflows the int cursor at 2^31); align(0) divides by zero.", "quantifier": "for all streams and alignments", "why_tests_cant": "unbounded", "anchors": ["include/colorsystem.hpp: MemoryStream::align"]}
{"id": "C48", "title": "Reading past the end", "statement": "Typed reads at or past the end of the buffer return zero bytes and never access memory out of bounds; a value cut by the end is completed with zero bytes.", "quantifier": "for all streams", "why_tests_cant": "boundary states", "anchors": ["include/colorsystem.hpp: MemoryStream::getUint8", "include/colorsystem.hpp: MemoryStream::getUint32"]}
{"id": "C49", "title": "Strings survive a round trip", "statement": "putString(s) followed by seeking back and get_string() returns s.", "quantifier": "for all strings", "why_tests_cant": "no test covers it", "anchors": ["include/colorsystem.hpp: MemoryStream::putString", "include/colorsystem.hpp: MemoryStream::get_string", "include/colorsystem.hpp: MemoryStream::putSubstr", "include/colorsystem.hpp: MemoryStream::getSubstr"]}
{"id": "C50", "title": "put_at stores a byte", "statement": "put_at(pos, v) followed by get_at(pos) returns v.", "quantifier": "for all streams and positions", "why_tests_cant": "no test covers it", "anchors": ["include/colorsystem.hpp: MemoryStream::put_at", "include/colorsystem.hpp: MemoryStream::get_at"]}
{"id": "C51", "title": "Bulk read and write", "statement": "write(data) at the cursor overwrites or extends the buffer with exactly the data and advances the cursor by its length; read(n) before the end returns the next min(n, remaining) bytes and advances by as many (at the very end it forms a reference past the buffer, undefined); writing, seeking back and reading returns the data.", "quantifier": "for all streams, non-empty data below 2^31 bytes", "why_tests_cant": "unbounded", "anchors": ["include/colorsystem.hpp: MemoryStream::write", "include/colorsystem.hpp: MemoryStream::read", "include/colorsystem.hpp: MemoryStream::write_at", "include/colorsystem.hpp: MemoryStream::read_at"]}
{"id": "C52", "title": "Sampling a spectrum at its grid points", "statement": "fetch(380+i) returns sample i exactly, for every i in 0..399, in float arithmetic; building a Spectrum from 400 finite samples with the default range copies them exactly; in both the only change is that a sample of -0 may become +0.", "quantifier": "for all spectra with finite samples", "why_tests_cant": "2^12800 spectra", "anchors": ["include/colorsystem.hpp: Spectrum::fetch", "include/colorsystem.hpp: Spectrum::Spectrum"]}
{"id": "C53", "title": "Interpolation between grid points", "statement": "For lambda between two neighbouring grid points fetch returns the linear interpolation of the two samples.", "quantifier": "for all lambda in [380,779]", "why_tests_cant": "tests use a few wavelengths", "anchors": ["include/colorsystem.hpp: Spectrum::fetch", "include/colorsystem.hpp: Spectrum::lerp"]}
{"id": "C54", "title": "Extrapolation and memory safety of fetch", "statement": "fetch never reads outside the sample array for any float wavelength from -2^31+256 to 2^31+256 nm and returns the first or last sample outside 380 to 779 nm; it is undefined behaviour (float-to-int overflow) for every other float, NaN and the infinities included.", "quantifier": "for all floats lambda", "why_tests_cant": "out-of-range casts are undefined, tests cannot observe them reliably", "anchors": ["include/colorsystem.hpp: Spectrum::fetch"]}
{"id": "C55", "title": "Tristimulus values are linear in the spectrum", "statement": "fromSpectrum(a+b) = fromSpectrum(a)+fromSpectrum(b), fromSpectrum(k a) = k fromSpectrum(a); values are non-negative for non-negative spectra and non-decreasing in each sample for non-negative colour-matching functions, which all three predefined observers have.", "quantifier": "for all real spectra", "why_tests_cant": "400-dimensional input", "anchors": ["include/colorsystem.hpp: Observer::fromSpectrum", "include/colorsystem.hpp: Spectrum::add", "include/colorsystem.hpp: Spectrum::mul", "include/colorsystem.hpp: Spectrum::dot"]}
{"id": "C56", "title": "Equal-energy spectrum is neutral", "statement": "fromSpectrum(E(e)) = (e,e,e) for every observer whose colour-matching functions do not sum to zero.", "quantifier": "for all real e and all observers", "why_tests_cant": "continuum", "anchors": ["include/colorsystem.hpp: Observer::fromSpectrum", "include/colorsystem.hpp: Spectrum::E", "include/colorsystem.hpp: Observer::Observer"]}
{"id": "C57", "title": "Reflectance under light", "statement": "fromReflectanceAndLight(r,l) equals fromSpectrum(mul(r,l)) and is symmetric in r and l, bit for bit in float arithmetic; over the reals a reflectance between 0 and 1 never gives more than the light itself, which applies to the 24 built-in Macbeth patches under any non-negative light and predefined observer.", "quantifier": "for all spectra", "why_tests_cant": "400-dimensional input; bit-exactness", "anchors": ["include/colorsystem.hpp: Observer::fromReflectanceAndLight", "include/colorsystem.hpp: Spectrum::dot3", "include/colorsystem.hpp: Spectrum::mul"]}
{"id": "C58", "title": "Photometric units", "statement": "lumensFromMonochromaticFlux is proportional to the power, is 683 times the power times the luminosity function at grid wavelengths, and equals the Y component of candellasFromMonochromaticRadiance.", "quantifier": "for all wavelengths in range and all powers", "why_tests_cant": "continuum", "anchors": ["include/colorsystem.hpp: Observer::lumensFromMonochromaticFlux", "include/colorsystem.hpp: Observer::candellasFromMonochromaticRadiance"]}
{"id": "C59", "title": "Built-in tables are physical", "statement": "All 24 Macbeth and 99 TM-30-15 reflectances lie in [0,1], all colour-matching functions and D65 are non-negative, and all are complete (400 samples).", "quantifier": "for all tables and samples", "why_tests_cant": "53,600 numbers transcribed by hand", "anchors": ["include/colorsystem.hpp: Macbeth::Patch", "include/colorsystem.hpp: TM_30_15::sample", "include/colorsystem.hpp: CIE1931_X", "include/colorsystem.hpp: CIE2012_X", "include/colorsystem.hpp: CIE1931_JuddVos_X", "include/colorsystem.hpp: CIE_D65"]}
{"id": "C60", "title": "Blackbody spectra", "statement": "Spectrum::blackbody(T) is positive at every wavelength and increasing in T for every T > 0.", "quantifier": "for all real T > 0", "why_tests_cant": "continuum", "anchors": ["include/colorsystem.hpp: Spectrum::blackbody", "include/colorsystem.hpp: Spectrum::planck"]}
{"id": "C61", "title": "Rounding error of spectral integration", "statement": "In binary32 the result of Spectrum::dot differs from the exact dot product by at most 401 units roundoff (relative to the sum of absolute products) plus an underflow term of 401*2^-150, whenever the sum of absolute products is at most 2^126.", "quantifier": "for all finite float spectra meeting the no-overflow bound", "why_tests_cant": "2^25600 inputs", "anchors": ["include/colorsystem.hpp: Spectrum::dot", "include/colorsystem.hpp: Spectrum::sum"]}
{"id": "C62", "title": "The SVD routine is memory safe and total", "statement": "svdcmp on an m x n matrix with m >= n and matching work arrays never indexes out of bounds, whatever the floats in the matrix (NaN and infinities included), always returns 1, preserves all dimensions, and returns -1 leaving its arguments untouched when m < n.", "quantifier": "for all m, n and all float matrices", "why_tests_cant": "the code reads w[l-1] in a loop that reaches l = 0; only an invariant on rv1[0] prevents w[-1]", "anchors": ["include/colorsystem.hpp: SOLVER::svdcmp"]}
{"id": "C63", "title": "The SVD routine reports non-convergence", "statement": "svdcmp returns a failure code when a singular value has not converged after 30 sweeps.", "quantifier": "for all matrices", "why_tests_cant": "non-convergence needs adversarial inputs", "anchors": ["include/colorsystem.hpp: SOLVER::svdcmp"]}
{"id": "C64", "title": "Back-substitution gives the least-squares solution", "statement": "Given a genuine singular value decomposition A = U diag(w) V^T with orthonormal columns, svbksb(U,w,V,b,x) returns a minimiser of |Ax-b|, the one of least norm, treating exactly the zero singular values as rank-deficient.", "quantifier": "for all dimensions and all real decompositions", "why_tests_cant": "unbounded dimensions", "anchors": ["include/colorsystem.hpp: SOLVER::svbksb"]}
{"id": "C65", "title": "Colour-correction system", "statement": "Corrector::solve(patch,target) solves a linear least-squares system whose squared residual, at the nine entries of any 3x3 matrix M in row order, is exactly the sum over i of |M*patch[i] - target[i]|^2; it returns a matrix whenever there are at least as many targets as patches, and is undefined behaviour when there are fewer (so the Macbeth overload handles up to 24 patches); with fewer than two patches the result is the zero matrix and no error is reported.", "quantifier": "for all patch and target lists", "why_tests_cant": "unbounded lists", "anchors": ["include/colorsystem.hpp: Corrector::solve", "include/colorsystem.hpp: SOLVER::solve", "include/colorsystem.hpp: Matrix3::fromArray"]}
{"id": "C66", "title": "Rank-deficiency threshold of the solver", "statement": "SOLVER::solve zeroes exactly the singular values below TOL times the largest one before back-substitution, and reports success (0) even when the decomposition was refused.", "quantifier": "for all matrices and tolerances", "why_tests_cant": "return codes are not tested", "anchors": ["include/colorsystem.hpp: SOLVER::solve"]}
{"id": "C67", "title": "Seeking relative to the end", "statement": "fseek(0, END) moves the cursor to the end of the stream, as the C library function of the same name does; fseek(x, TOP) and fseek(x, CURRENT) move to x and to the cursor plus x when that lies in the stream and fail the assertion otherwise.", "quantifier": "for all streams and offsets", "why_tests_cant": "no test covers it", "anchors": ["include/colorsystem.hpp: MemoryStream::fseek", "include/colorsystem.hpp: MemoryStream::seekTo"]}
{"id": "C68", "title": "The SVD routine computes a singular value decomposition", "statement": "svdcmp(A,w,V) replaces A by U such that U diag(w) V^T is the original A, with orthonormal columns of U and V and non-negative w, for every matrix with at least as many rows as columns.", "quantifier": "for all matrices", "why_tests_cant": "the faulty branch needs an exactly singular matrix with three or more columns", "anchors": ["include/colorsystem.hpp: SOLVER::svdcmp"]}
{"id": "C69", "title": "The solver returns a least-squares solution", "statement": "SOLVER::solve(A,b,x,tol) stores in x a minimiser of |A'x - b|, the one of least norm, where A' differs from A by at most sqrt(n)*tol relative to the Frobenius norm of A, and returns 0.", "quantifier": "for all systems with at least as many equations as unknowns", "why_tests_cant": "rank-deficient systems are a measure-zero set", "anchors": ["include/colorsystem.hpp: SOLVER::solve", "include/colorsystem.hpp: SOLVER::svdcmp", "include/colorsystem.hpp: SOLVER::svbksb"]}
{"id": "C70", "title": "Colour correction is least squares", "statement": "Corrector::solve(patch,target) returns the matrix M minimising the sum over i of |M*patch[i] - target[i]|^2; in particular it reproduces the targets when some matrix does.", "quantifier": "for all lists of at least two patches", "why_tests_cant": "unbounded lists; degenerate patch sets", "anchors": ["include/colorsystem.hpp: Corrector::solve", "include/colorsystem.hpp: SOLVER::solve"]}
{"id": "C71", "title": "Scalar division", "statement": "Dividing a tristimulus or a matrix by a scalar divides every component by it; dividing by zero leaves no component finite.", "quantifier": "for all vectors, matrices and scalars", "why_tests_cant": "infinitely many values", "anchors": ["include/colorsystem.hpp: Tristimulus::operator/", "include/colorsystem.hpp: Matrix3::div"]}
{"id": "C72", "title": "Scalar division rounds once", "statement": "In binary32, dividing a tristimulus or a matrix by a scalar gives each quotient correctly rounded; in particular a component divided by itself is 1.", "quantifier": "for all finite binary32 operands", "why_tests_cant": "a test would have to hit the scalars whose reciprocal rounds badly", "anchors": ["include/colorsystem.hpp: Tristimulus::operator/", "include/colorsystem.hpp: Matrix3::div"]}
{"id": "C73", "title": "Dot product of tristimuli", "statement": "The dot product is symmetric bit for bit, is the sum of products over the reals, and in binary32 differs from it by at most 4*2^-24 times the sum of absolute products, plus 2^-148, when that sum is at most 2^126.", "quantifier": "for all binary32 triples", "why_tests_cant": "error bound over all inputs", "anchors": ["include/colorsystem.hpp: Tristimulus::dot"]}
{"id": "C74", "title": "Extrema of components", "statement": "min3/max3 return a component that is not greater/less than any other, and min/max do so componentwise, for every pair of triples of floats.", "quantifier": "for all binary32 triples, infinities and NaN included", "why_tests_cant": "NaN in one particular position", "anchors": ["include/colorsystem.hpp: Tristimulus::min3", "include/colorsystem.hpp: Tristimulus::max3", "include/colorsystem.hpp: Tristimulus::min", "include/colorsystem.hpp: Tristimulus::max"]}
{"id": "C75", "title": "Hue by arctangent", "statement": "toHSV_atan returns the same saturation and value as toHSV and, as hue, the polar angle in [0,360) of (2R-G-B, sqrt(3)(G-B)); the two hues differ by at most 1.2 degrees.", "quantifier": "for all real triples", "why_tests_cant": "bound over a continuum; sector boundaries", "anchors": ["include/colorsystem.hpp: Tristimulus::toHSV_atan", "include/colorsystem.hpp: Tristimulus::toHSV"]}
{"id": "C76", "title": "fromCCT terminates in binary32", "statement": "fromCCT returns for every binary32 temperature, offset and luminance, NaN and infinities included.", "quantifier": "for all 2^96 argument triples", "why_tests_cant": "a looping input cannot be found by running", "anchors": ["include/colorsystem.hpp: Tristimulus::fromCCT", "include/colorsystem.hpp: util::sqrtf"]}
{"id": "C77", "title": "Loading a gamut from an ICC profile", "statement": "loadGamutFromICCProfileMemory returns the gamut the profile describes.", "quantifier": "for all profiles", "why_tests_cant": "unbounded input", "anchors": ["include/colorsystem.hpp: loadGamutFromICCProfileMemory"]}
{"id": "C78", "title": "Gamut from a photographed chart", "statement": "makeGamut returns, for up to 24 measured patches, a gamut whose fromXYZ is the corrector's matrix and whose toXYZ is the inverse of it; more patches than the chart has are undefined behaviour, and fewer than two patches give the zero matrix, whose inverse has no finite entry.", "quantifier": "for all patch lists, lights and observers", "why_tests_cant": "unbounded lists", "anchors": ["include/colorsystem.hpp: Corrector::makeGamut", "include/colorsystem.hpp: Corrector::solve"]}
{"id": "C79", "title": "feof and reading everything", "statement": "feof is true exactly when the cursor is at the end, and reading bytes until feof terminates with exactly the bytes from the cursor to the end, in order, and the cursor at the end.", "quantifier": "for all streams below 2 GiB", "why_tests_cant": "unbounded streams", "anchors": ["include/colorsystem.hpp: MemoryStream::feof", "include/colorsystem.hpp: MemoryStream::getUint8"]}
{"id": "C80", "title": "Following a back-patched pointer", "statement": "After putPointer32/64, any bytes appended, and adjustPointer32/64, seeking to the placeholder and reading the pointer with the same byte order yields the position that was the end when it was adjusted, seeking there succeeds, and no other byte has changed.", "quantifier": "for all streams and appended bytes below 2 GiB", "why_tests_cant": "unbounded streams", "anchors": ["include/colorsystem.hpp: MemoryStream::getPointer32", "include/colorsystem.hpp: MemoryStream::getPointer64", "include/colorsystem.hpp: MemoryStream::adjustPointer32", "include/colorsystem.hpp: MemoryStream::adjustPointer64"]}
{"id": "C81", "title": "Initialising a stream without data", "statement": "init(NULL,n) yields a stream of n zero bytes with the cursor at the start.", "quantifier": "for all streams and sizes", "why_tests_cant": "needs a stream that was used before", "anchors": ["include/colorsystem.hpp: MemoryStream::init"]}
{"id": "C82", "title": "CIELAB with the default white", "statement": "The conversions without a white point round-trip every tristimulus up to the library's D50 white.", "quantifier": "for all real triples up to Illuminant_D50", "why_tests_cant": "two constants for the same white in different places", "anchors": ["include/colorsystem.hpp: Tristimulus::toCIELAB", "include/colorsystem.hpp: Tristimulus::fromCIELAB", "include/colorsystem.hpp: Illuminant_D50"]}
{"id": "C83", "title": "White is exact in binary32", "statement": "In binary32, the CIELAB value of any finite white with non-zero components relative to itself is exactly (100,0,0), and converting back gives the white bit for bit, provided pow(1,y) is 1.", "quantifier": "for all finite non-zero whites", "why_tests_cant": "2^96 whites", "anchors": ["include/colorsystem.hpp: Tristimulus::toCIELAB", "include/colorsystem.hpp: Tristimulus::fromCIELAB"]}
{"id": "C84", "title": "Spectrum from samples on another grid", "statement": "The constructor from n samples at equally spaced wavelengths lo..hi interpolates linearly between the two nearest samples at each of its 400 wavelengths, and repeats the end samples outside.", "quantifier": "for all sample lists and ranges", "why_tests_cant": "depends on the position in the grid", "anchors": ["include/colorsystem.hpp: Spectrum::Spectrum", "include/colorsystem.hpp: Spectrum::fetch"]}
{"id": "C85", "title": "Colour matching functions at a wavelength", "statement": "The observer's xyz at a whole wavelength from 380 to 779 nm is the tristimulus of the spectrum that is 1 there and 0 elsewhere.", "quantifier": "for all observers with non-zero sums", "why_tests_cant": "two independent code paths over all wavelengths", "anchors": ["include/colorsystem.hpp: Observer::xyz", "include/colorsystem.hpp: Observer::fromSpectrum"]}
{"id": "C86", "title": "Predefined gamuts have the published primaries", "statement": "primaryRed/Green/Blue/White of AdobeRGB, Rec709, Rec2020, DCI_P3, S_Gamut, S_Gamut3_Cine, ACEScg and ACES2065 are the chromaticities and white of the standards; the luminance each of Rec709, Rec2020, ACEScg and ACES2065 gives to any linear colour is the weighted sum with the published coefficients to four digits; the XYZ gamut is the identity and LMS is the Bradford cone matrix.", "quantifier": "for all linear colours; the eight gamuts of the standards", "why_tests_cant": "a wrong digit in a primary shifts every colour slightly", "anchors": ["include/colorsystem.hpp: Gamut::primaryRed", "include/colorsystem.hpp: Gamut::toXYZ", "include/colorsystem.hpp: Rec709", "include/colorsystem.hpp: Rec2020", "include/colorsystem.hpp: ACEScg", "include/colorsystem.hpp: ACES2065"]}
{"id": "C87", "title": "The D65 spectrum is D65", "statement": "Every multiple of the tabulated CIE D65 spectrum, integrated by the CIE 1931 observer, has X/Y and Z/Y within 0.0002 of Illuminant_D65 and a toYxy chromaticity within 0.0001 of (0.3127, 0.3290).", "quantifier": "for all real scalings", "why_tests_cant": "two independent descriptions of one illuminant; a wrong sample among 1600 shifts the ratio", "anchors": ["include/colorsystem.hpp: CIE_D65", "include/colorsystem.hpp: CIE1931", "include/colorsystem.hpp: Observer::fromSpectrum", "include/colorsystem.hpp: Illuminant_D65"]}
{"id": "C88", "title": "Integration is monotone in binary32", "statement": "In binary32, raising any reflectance samples of non-negative bounded spectra never lowers a component of fromReflectanceAndLight, and dot of non-negative finite spectra is monotone even when it overflows.", "quantifier": "for all spectra, lights and observers with samples in [0,2^30]", "why_tests_cant": "2^12800 spectra, rounding at 800 steps", "anchors": ["include/colorsystem.hpp: Observer::fromReflectanceAndLight", "include/colorsystem.hpp: Spectrum::dot", "include/colorsystem.hpp: Spectrum::dot3"]}
{"id": "C89", "title": "The grey patches stay ordered", "statement": "Under every non-negative light and observer the six grey patches of Macbeth::reference are ordered from white to black in X, Y and Z; also in binary32 with the predefined observers.", "quantifier": "for all non-negative lights", "why_tests_cant": "unbounded family of lights", "anchors": ["include/colorsystem.hpp: Macbeth::reference", "include/colorsystem.hpp: Macbeth::Patch"]}
{"id": "C90", "title": "ICtCp round trip", "statement": "ICtCp_to_XYZ(XYZ_to_ICtCp(xyz)) = xyz for every xyz whose cone responses lie in [0,100].", "quantifier": "for all real XYZ", "why_tests_cant": "the inverse matrix is given by six-digit constants; failures need a vanishing cone response", "anchors": ["include/colorsystem.hpp: XYZ_to_ICtCp", "include/colorsystem.hpp: ICtCp_to_XYZ"]}
{"id": "C91", "title": "HSV ranges in binary32", "statement": "In binary32, toHSV of finite components in [0,2^120] terminates and returns a hue in [0,360], a saturation in [0,1] and, as value, the largest component itself; fromHSV terminates for every |hue| <= 2^33, saturation in [0,1] and finite value >= 0, with components between 0 and the value, one of them equal to it, and the smallest within 3.01*2^-24 (relative to the value) of v(1-s).", "quantifier": "for all such binary32 triples", "why_tests_cant": "2^96 inputs, rounding can leave the ranges", "anchors": ["include/colorsystem.hpp: Tristimulus::toHSV", "include/colorsystem.hpp: Tristimulus::fromHSV"]}
{"id": "C92", "title": "HSV round trip in binary32", "statement": "In binary32, fromHSV(toHSV(rgb)) terminates and returns rgb up to 24*2^-24 times the largest component (plus 2^-150), for all finite components in [0,2^120], also when rounding moves the hue into the neighbouring sector.", "quantifier": "for all such binary32 triples", "why_tests_cant": "2^96 inputs; sector boundaries", "anchors": ["include/colorsystem.hpp: Tristimulus::toHSV", "include/colorsystem.hpp: Tristimulus::fromHSV"]}
{"id": "C93", "title": "Yxy round trip in binary32", "statement": "In binary32, fromYxy(toYxy(XYZ)) returns Y bit for bit, X up to 4.1*2^-24 relative and Z up to 10*2^-24 times X+Y+Z, for finite non-negative XYZ with a sum S in [2e-8,2^100] and Y >= 2e-8 S; toYxy(fromYxy(Yxy)) returns x and y up to 10*2^-24 and 8*2^-24 relative, for x,y in the triangle, y >= 2e-8.", "quantifier": "for all such binary32 triples", "why_tests_cant": "2^96 inputs", "anchors": ["include/colorsystem.hpp: Tristimulus::toYxy", "include/colorsystem.hpp: Tristimulus::fromYxy"]}
{"id": "C94", "title": "Euclidean colour differences in binary32", "statement": "In binary32, Delta::E76 and Delta::UV of finite colours whose components differ by at most 2^60 are finite and within 4*2^-24 relative (plus 2^-73) of the Euclidean distance of the three, respectively the last two, components.", "quantifier": "for all such pairs of binary32 colours", "why_tests_cant": "2^192 pairs; cancellation and underflow of squares", "anchors": ["include/colorsystem.hpp: Delta::E76", "include/colorsystem.hpp: Delta::UV"]}
{"id": "C95", "title": "Gamut round trips in binary32", "statement": "In binary32, for each of the ten predefined gamuts, fromXYZ(toXYZ(t)) and toXYZ(fromXYZ(t)) are finite and return every component up to 50*2^-24 times the largest absolute component of t (plus 2^-143); so does converting with GamutConvert from any predefined gamut to any other and back.", "quantifier": "for all finite binary32 triples up to 2^110, all 100 pairs of gamuts", "why_tests_cant": "2^96 colours, cancellation in the inverse matrices", "anchors": ["include/colorsystem.hpp: Gamut::toXYZ", "include/colorsystem.hpp: Gamut::fromXYZ", "include/colorsystem.hpp: GamutConvert", "include/colorsystem.hpp: AdobeRGB", "include/colorsystem.hpp: Rec709", "include/colorsystem.hpp: Rec2020", "include/colorsystem.hpp: DCI_P3", "include/colorsystem.hpp: S_Gamut", "include/colorsystem.hpp: S_Gamut3_Cine", "include/colorsystem.hpp: ACEScg", "include/colorsystem.hpp: ACES2065", "include/colorsystem.hpp: LMS", "include/colorsystem.hpp: XYZ"]}
{"id": "C96", "title": "Accuracy of the predefined gamuts in binary32", "statement": "In binary32, toXYZ of each of the ten predefined gamuts differs from the exact result by at most 10*2^-24, and fromXYZ by at most 30*2^-24, of the largest absolute component (plus 2^-148), although primaries, white and the matrices themselves are computed in binary32.", "quantifier": "for all finite binary32 triples up to 2^110", "why_tests_cant": "errors of matrix inversion enter every colour", "anchors": ["include/colorsystem.hpp: Gamut::toXYZ", "include/colorsystem.hpp: Gamut::fromXYZ", "include/colorsystem.hpp: AdobeRGB", "include/colorsystem.hpp: Rec709", "include/colorsystem.hpp: Rec2020", "include/colorsystem.hpp: DCI_P3", "include/colorsystem.hpp: S_Gamut", "include/colorsystem.hpp: S_Gamut3_Cine", "include/colorsystem.hpp: ACEScg", "include/colorsystem.hpp: ACES2065", "include/colorsystem.hpp: LMS", "include/colorsystem.hpp: XYZ"]}
{"id": "C97", "title": "Library-free segments of the transfer functions in binary32", "statement": "In binary32 and whatever the C library does: the sRGB, BT.709 and HLG functions and the ST 2084 encoder return 0 for negative input, sRGB and BT.709 return 1 above 1, the ST 2084 encoder returns 1 from 100 on; below their switch points the sRGB and BT.709 encoders are linear up to 1.2*2^-24 and decode back up to 2.01*2^-24 relative; HLG decodes what it encoded up to 3.01*2^-24 relative for inputs below 1.", "quantifier": "for all finite binary32 inputs (segments: from 2^-100 up), all C libraries", "why_tests_cant": "2^32 inputs for each possible library; the switch-point literals are rounded", "anchors": ["include/colorsystem.hpp: OTF::Y_to_sRGB", "include/colorsystem.hpp: OTF::sRGB_to_Y", "include/colorsystem.hpp: OTF::Y_to_BT709", "include/colorsystem.hpp: OTF::BT709_to_Y", "include/colorsystem.hpp: OTF::Y_to_HLG", "include/colorsystem.hpp: OTF::HLG_to_Y", "include/colorsystem.hpp: OTF::Y_to_ST2084"]}
{"id": "C98", "title": "Accuracy of sRGB in binary32", "statement": "In binary32, with any C library whose powf, expf, logf and log10f are within 2 units in the last place, the sRGB encoder is within 9*2^-24 and the decoder within 16*2^-24 of the exact curve for every finite input, and decoding the encoded value returns the input up to 41*2^-24 for inputs in [0,1].", "quantifier": "for all finite binary32 inputs, all accurate C libraries", "why_tests_cant": "2^32 inputs for each of unboundedly many libraries; rounded literals move the switch points", "anchors": ["include/colorsystem.hpp: OTF::Y_to_sRGB", "include/colorsystem.hpp: OTF::sRGB_to_Y"]}
{"id": "C99", "title": "Accuracy of BT.709 in binary32", "statement": "In binary32, with any such accurate C library, the BT.709 decoder is within 14*2^-24 of the exact curve for every finite input and the encoder within 9*2^-24 for every finite input but one: at the float 0.018f, which lies below 0.018 yet takes the upper branch, it is at least 0.0002 too high. Decoding the encoded value returns the input up to 34*2^-24 for all inputs in [0,1].", "quantifier": "for all finite binary32 inputs, all accurate C libraries", "why_tests_cant": "exactly one input in 2^32 misbehaves", "anchors": ["include/colorsystem.hpp: OTF::Y_to_BT709", "include/colorsystem.hpp: OTF::BT709_to_Y"]}
{"id": "C100", "title": "Accuracy of gamma, ST 2084 encoding and HLG in binary32", "statement": "In binary32, with any such accurate C library: gamma(v,g) is within (5+1.1|ln v|)*2^-24 relative of the exact power and degamma restores v within (5+5g+1.1|ln v|)*2^-24 relative, for v in [2^-60,2^60] and g in [1,8]; the ST 2084 encoder is within 437*2^-24 relative of the exact curve from 2^-50 up; the HLG encoder is within 4.1*2^-24 on [2^-100,12], the decoder within 160*2^-24 on (0.5,1], and decoding the encoded value returns the input up to 450*2^-24.", "quantifier": "for all such binary32 inputs, all accurate C libraries", "why_tests_cant": "2^64 pairs, unboundedly many libraries", "anchors": ["include/colorsystem.hpp: OTF::gamma", "include/colorsystem.hpp: OTF::degamma", "include/colorsystem.hpp: OTF::Y_to_ST2084", "include/colorsystem.hpp: OTF::Y_to_HLG", "include/colorsystem.hpp: OTF::HLG_to_Y"]}
{"id": "C101", "title": "Accuracy of CIELAB in binary32", "statement": "In binary32, with any C library whose powf, expf, logf and log10f are within 2 units in the last place: for finite stimuli in [0,2^100] and whites in [2^-20,2^20], toCIELAB returns L within 850*2^-24, a within 6400*2^-24 and b within 2550*2^-24 of the exact values; for L in [0,100], |a| <= 500, |b| <= 200, fromCIELAB returns each component within 22*2^-24 of the white's component of the exact value; and fromCIELAB(toCIELAB(t)) returns every non-negative t, with components above the white's clipped to the white's, up to 83*2^-24 of the white.", "quantifier": "for all such binary32 colours and whites, all accurate C libraries", "why_tests_cant": "2^192 inputs, unboundedly many libraries; the branch may differ from the exact one", "anchors": ["include/colorsystem.hpp: Tristimulus::toCIELAB", "include/colorsystem.hpp: Tristimulus::fromCIELAB"]}
{"id": "C102", "title": "ACES2065 contains every light", "statement": "For each of the three predefined observers, the tristimulus value of every non-negative spectrum, and of every non-negative reflectance under every non-negative light, converts to an ACES2065 colour without negative components. Of the predefined RGB gamuts only ACES2065 has this property: light of 500 nm has a negative component in each of the seven others.", "quantifier": "for all spectra of 400 non-negative real samples", "why_tests_cant": "uncountably many spectra; the margin at the ends of the spectrum is tiny", "anchors": ["include/colorsystem.hpp: Observer::fromSpectrum", "include/colorsystem.hpp: Observer::fromReflectanceAndLight", "include/colorsystem.hpp: Gamut::fromXYZ", "include/colorsystem.hpp: AdobeRGB", "include/colorsystem.hpp: Rec709", "include/colorsystem.hpp: Rec2020", "include/colorsystem.hpp: DCI_P3", "include/colorsystem.hpp: S_Gamut", "include/colorsystem.hpp: S_Gamut3_Cine", "include/colorsystem.hpp: ACEScg", "include/colorsystem.hpp: ACES2065"]}
{"id": "C103", "title": "Which gamuts contain which", "statement": "For the 100 ordered pairs of predefined gamuts: GamutConvert(a,b) maps every non-negative colour to a non-negative colour exactly for the pairs listed in the theorem (Rec709 into all; Rec2020 into S-Gamut, ACEScg, ACES2065 and XYZ; ...). In binary32 the same holds with the pairs in the second list, which lacks only Rec709 to AdobeRGB and the conversions of a gamut to itself other than Rec709 and XYZ.", "quantifier": "for all non-negative real colours; for all finite non-negative binary32 colours up to 2^110", "why_tests_cant": "universally quantified colour, both directions of the equivalence", "anchors": ["include/colorsystem.hpp: GamutConvert", "include/colorsystem.hpp: AdobeRGB", "include/colorsystem.hpp: Rec709", "include/colorsystem.hpp: Rec2020", "include/colorsystem.hpp: DCI_P3", "include/colorsystem.hpp: S_Gamut", "include/colorsystem.hpp: S_Gamut3_Cine", "include/colorsystem.hpp: ACEScg", "include/colorsystem.hpp: ACES2065", "include/colorsystem.hpp: LMS", "include/colorsystem.hpp: XYZ"]}
{"id": "C104", "title": "Luminance of non-negative colours", "statement": "toXYZ maps every non-negative colour to a non-negative Y exactly for the predefined gamuts other than S-Gamut, S-Gamut3.Cine and ACES2065, whose blue primary has luminance below -0.05; the same equivalence holds in binary32.", "quantifier": "for all non-negative real colours; for all finite non-negative binary32 colours up to 2^110", "why_tests_cant": "universally quantified colour, both directions", "anchors": ["include/colorsystem.hpp: Gamut::toXYZ", "include/colorsystem.hpp: AdobeRGB", "include/colorsystem.hpp: Rec709", "include/colorsystem.hpp: Rec2020", "include/colorsystem.hpp: DCI_P3", "include/colorsystem.hpp: S_Gamut", "include/colorsystem.hpp: S_Gamut3_Cine", "include/colorsystem.hpp: ACEScg", "include/colorsystem.hpp: ACES2065", "include/colorsystem.hpp: LMS", "include/colorsystem.hpp: XYZ"]}
{"id": "C105", "title": "Oklab is the published Oklab", "statement": "XYZ_to_OKLAB returns the Oklab colour as published by its author, so that white (0.95047, 1, 1.08883) is neutral and the lightness of (1,0,0) is positive.", "quantifier": "for all real stimuli", "why_tests_cant": "the tolerance of the existing tests (0.1) hides the deviation for white", "anchors": ["include/colorsystem.hpp: XYZ_to_OKLAB", "include/colorsystem.hpp: test/oklab.cpp"]}
{"id": "C106", "title": "Planck's law", "statement": "Spectrum::planck(T,l) returns the spectral radiance of Planck's law, per nanometre, with the constants h, c, k that the function declares.", "quantifier": "for all real T > 0, l > 0", "why_tests_cant": "a relative error of 0.08 % is invisible to tests that compare chromaticities", "anchors": ["include/colorsystem.hpp: Spectrum::planck"]}
{"id": "C107", "title": "The Planckian approximations", "statement": "The x chromaticity of fromCT(T,Y) strictly decreases with T on [0,13000] K and that of fromPlanckianLocus(T,Y) on [1667,infinity); between 1667 K and 10000 K the two differ by at most 0.00107 in x and 0.0043 in y.", "quantifier": "for all real temperatures in the ranges, Y >= 1e-6", "why_tests_cant": "a continuum of temperatures, two piecewise rational functions", "anchors": ["include/colorsystem.hpp: Tristimulus::fromCT", "include/colorsystem.hpp: Tristimulus::fromPlanckianLocus", "include/colorsystem.hpp: Tristimulus::blackbody_x_approx", "include/colorsystem.hpp: Tristimulus::blackbody_y_approx"]}
{"id": "C108", "title": "Colour temperatures give realisable stimuli", "statement": "fromCT and fromPlanckianLocus return stimuli without negative components for every temperature from 1667 K up and every Y > 0.", "quantifier": "for all real T >= 1667, Y > 0", "why_tests_cant": "a continuum of temperatures", "anchors": ["include/colorsystem.hpp: Tristimulus::fromCT", "include/colorsystem.hpp: Tristimulus::fromPlanckianLocus"]}
{"id": "C109", "title": "Integer code values survive decode then encode", "statement": "Decoding the float k/M and encoding the result again with the same transfer function gives a value which, multiplied by M, rounds to k: for sRGB when M <= 32768, HLG when M <= 131072, ST 2084 when M <= 4990 and BT.709 when M <= 1900. For BT.709 it fails at twelve bits (M = 4095).", "quantifier": "for all integers 0 <= k <= M and every M in the range; for every C library whose powf, expf and logf are within two units in the last place", "why_tests_cant": "the property concerns every code value of every bit depth and every admissible math library", "anchors": ["include/colorsystem.hpp: OTF::Y_to_sRGB", "include/colorsystem.hpp: OTF::sRGB_to_Y", "include/colorsystem.hpp: OTF::Y_to_HLG", "include/colorsystem.hpp: OTF::HLG_to_Y", "include/colorsystem.hpp: OTF::Y_to_ST2084", "include/colorsystem.hpp: OTF::ST2084_to_Y", "include/colorsystem.hpp: OTF::Y_to_BT709", "include/colorsystem.hpp: OTF::BT709_to_Y"]}
{"id": "C110", "title": "Transfer functions are those of the standards", "statement": "Over the reals each encoder and decoder computes the published curve on its whole domain: sRGB (IEC 61966-2-1), BT.709, SMPTE ST 2084 with 100 standing for 10000 cd/m2, the BT.2100 HLG OETF and inverse with 12 standing for 1, Sony S-Log and S-Log2, and the power law; inputs outside the range are clipped as stated. At the one input where sRGB and HLG assign the join to the other piece the difference is below 1e-7. The colour-level conversions apply the selected curve to each component.", "quantifier": "for all real inputs (for ST 2084 encoding all positive ones up to 100, decoding 0 < c <= 1)", "why_tests_cant": "round-trip tests do not notice a constant changed in both directions; the formulas are compared at every real input", "anchors": ["include/colorsystem.hpp: OTF::Y_to_sRGB", "include/colorsystem.hpp: OTF::sRGB_to_Y", "include/colorsystem.hpp: OTF::Y_to_BT709", "include/colorsystem.hpp: OTF::BT709_to_Y", "include/colorsystem.hpp: OTF::Y_to_ST2084", "include/colorsystem.hpp: OTF::ST2084_to_Y", "include/colorsystem.hpp: OTF::Y_to_HLG", "include/colorsystem.hpp: OTF::HLG_to_Y", "include/colorsystem.hpp: OTF::Y_to_SLog", "include/colorsystem.hpp: OTF::SLog_to_Y", "include/colorsystem.hpp: OTF::Y_to_SLog2", "include/colorsystem.hpp: OTF::SLog2_to_Y", "include/colorsystem.hpp: OTF::gamma", "include/colorsystem.hpp: OTF::degamma", "include/colorsystem.hpp: OTF::toScreen", "include/colorsystem.hpp: OTF::toScene"]}
{"id": "C111", "title": "HSV is the hexcone model", "statement": "Converting from HSV gives, for every real hue, saturation and value, the colour whose channels are v - v s max(0, min(k, 4-k, 1)) with k = (n + h/60) mod 6, n = 5, 3, 1. Converting to HSV returns a hue in [0,360), the largest component and the saturation such that this formula reproduces the colour; greys get hue 0. A hue in [0,360) with positive saturation and value survives the way to RGB and back.", "quantifier": "for all real hues (any number of turns), saturations and values, and all real colours", "why_tests_cant": "three real parameters and six sectors with shared boundaries", "anchors": ["include/colorsystem.hpp: Tristimulus::toHSV", "include/colorsystem.hpp: Tristimulus::fromHSV", "include/colorsystem.hpp: Tristimulus::mod360"]}
{"id": "C112", "title": "ICtCp follows BT.2100", "statement": "The ICtCp conversion is the 3x3 cone matrix, ST 2084 encoding and the BT.2100 integer matrix. For every BT.2020 colour with components between 0 and 10000 cd/m2, not black, converting to XYZ with the predefined BT.2020 gamut and then to ICtCp gives values within 0.00013 (I), 0.0009 (Ct) and 0.0012 (Cp) of those that BT.2100 defines directly from RGB; black gives (0,0,0).", "quantifier": "for all real BT.2020 colours with components in 0..100 (units of 100 cd/m2), not all zero", "why_tests_cant": "the bound holds over a three-dimensional continuum and includes the steep part of the PQ curve near black", "anchors": ["include/colorsystem.hpp: XYZ_to_ICtCp", "include/colorsystem.hpp: Gamut::Rec2020", "include/colorsystem.hpp: OTF::Y_to_ST2084"]}
{"id": "C113", "title": "Accuracy of S-Log, S-Log2 and S-Log3 in binary32", "statement": "In binary32, with any C library whose powf, expf, logf and log10f are within 2 units in the last place: the S-Log encoder is within 5*2^-24 of Sony's formula of the input clipped to [0,10], for every finite input, and decoding the code returns that clipped value v within 46*2^-24*(v+0.0376); the S-Log2 encoder is within 7.5*2^-24 on [0,14] and, without any assumption on the library, within 13.5*2^-24 on [-1,0), and decoding returns v within 82*2^-24*(v+0.0532); the S-Log, S-Log2 and S-Log3 decoders are within 18.4*2^-24*(v+0.0376), 33*2^-24*(v+0.0532) and 32*2^-24*(|v|+0.01) of Sony's value v for every code in [0,1]. The S-Log3 encoder is within 0.9*2^-24 of the exact evaluation of its own formula on [0,40], except at the single float 0.01125f, where it is more than 0.2 below it.", "quantifier": "all floats in the stated ranges, all C libraries of the stated accuracy", "why_tests_cant": "There are hundreds of millions of floats per curve and every C library has its own errors; a test fixes one library and a few points.", "anchors": ["include/colorsystem.hpp: OTF::Y_to_SLog", "include/colorsystem.hpp: OTF::SLog_to_Y", "include/colorsystem.hpp: OTF::Y_to_SLog2", "include/colorsystem.hpp: OTF::SLog2_to_Y", "include/colorsystem.hpp: OTF::Y_to_SLog3", "include/colorsystem.hpp: OTF::SLog3_to_Y"]}
{"id": "C114", "title": "Colour temperature polynomials in binary32", "statement": "For every float T in [0,13000] the chromaticity polynomials used by fromCT, which are evaluated in double and rounded once, are within 0.83*2^-24 (x) and 0.91*2^-24 (y) of their exact values; for T in [1100,13000] and luminance Y in [1e-6,1e6], fromCT returns Y unchanged and X and Z within 14.8*2^-24*Y and 19*2^-24*Y of the exact result.", "quantifier": "all floats T and Y in the stated ranges; no assumption on the C library", "why_tests_cant": "The polynomials cancel heavily (terms of size 100 giving 0.3), so the error depends on every temperature; tests sample a few.", "anchors": ["include/colorsystem.hpp: Tristimulus::blackbody_x_approx", "include/colorsystem.hpp: Tristimulus::blackbody_y_approx", "include/colorsystem.hpp: Tristimulus::fromCT"]}
{"id": "C115", "title": "The CIE 2000 colour difference against the CIE 1976 one, and the triangle inequality", "statement": "Delta::E00 satisfies the triangle inequality. FALSE: with unit weights E00(black, white) on the grey axis is 100 while E00(black, L=50) + E00(L=50, white) is less than 74. What holds, in exact arithmetic: between two greys E00 is |L2-L1| / (kl * Sl) with Sl = 1 + 0.015 t^2/sqrt(20 + t^2), t = (L1+L2)/2 - 50; with weights of at least 1, E00 never exceeds 2.1214 times E76 of the same pair (more precisely the root of dL^2 + 4.5 da^2 + 2 db^2), so nearby colours always get a small difference; and for lightnesses in [0,100], a lightness difference dL forces E00 >= |dL| / (1.75 kl).", "quantifier": "all pairs of real Lab colours and all weights in the stated ranges; the refutation is a concrete triple", "why_tests_cant": "The bound relates two formulas over a six-dimensional space with branches on hue; sampled pairs cannot establish a constant, and the triangle inequality fails only for well-chosen triples.", "anchors": ["include/colorsystem.hpp: Delta::E00", "include/colorsystem.hpp: Delta::E76"]}
{"id": "C116", "title": "The CIE 2000 difference in binary32 is never NaN, is symmetric and vanishes on equal colours", "statement": "In binary32, for Lab components of magnitude at most 1024 and weights in [1/1024, 1024], and for any C library whose powf is between 0 and twice the true value, expf of a non-positive number in [0, 1+2^-20], sinf and cosf within 2^-20, sinf odd, atan2f at most 3.1416 in magnitude and fmodf in range: Delta::E00 returns a finite non-negative number (the quantity under its last square root, which contains a negative cross term, never rounds to a negative number), swapping the two colours returns the same value exactly, and a colour compared with itself gives exactly 0.", "quantifier": "all binary32 colours and weights in the stated ranges, all such C libraries", "why_tests_cant": "A negative radicand needs a particular hue, chroma and rounding pattern; no test suite of pairs can exclude it, nor can it range over C libraries.", "anchors": ["include/colorsystem.hpp: Delta::E00"]}
{"id": "C117", "title": "The Planckian-locus spline in binary32 stays close to the exact spline and positive", "statement": "In binary32, for temperatures in [1667, 25000] K and luminances in [1e-6, 1e6], fromPlanckianLocus keeps Y, returns finite strictly positive X and Z, X within 48*2^-24*Y and Z within 2^-17*Y of what the same spline gives in exact arithmetic.", "quantifier": "all binary32 temperatures and luminances in the stated ranges; independent of the C library", "why_tests_cant": "The cubic in 1/T cancels and its result feeds a second cubic; a test can only sample temperatures.", "anchors": ["include/colorsystem.hpp: fromPlanckianLocus"]}
{"id": "C118", "title": "Conversion between predefined gamuts is accurate in binary32", "statement": "For any two of the ten predefined gamuts, the matrix GamutConvert computes in binary32, applied in binary32 to any finite colour of magnitude up to 2^110, gives a finite result within 32*2^-24 times the largest component (plus 4*2^-150) of the exact conversion of that colour.", "quantifier": "all ordered pairs of predefined gamuts, all binary32 colours in range; independent of the C library", "why_tests_cant": "Tests compare a few matrix entries of a few pairs with a tolerance; this is a worst-case bound over all pairs and all colours.", "anchors": ["include/colorsystem.hpp: GamutConvert", "include/colorsystem.hpp: Matrix3::apply"]}
{"id": "C119", "title": "Bradford adaptation is accurate in binary32 and maps white to white", "statement": "For two binary32 white points with components of magnitude at most 1.25 and cone responses of the source white at least m (1/4 <= m <= 1), the matrix Bradford computes in binary32, applied in binary32 to any finite colour t of magnitude up to 2^110, is within (332/m^2)*2^-24*|t| + 4*2^-150 of exact Bradford adaptation; in particular the source white lands that close to the destination white.", "quantifier": "all binary32 white points and colours in the stated ranges; independent of the C library", "why_tests_cant": "White points form a six-dimensional continuum and the matrix is the product of three rounded matrices with a division; tests use one or two pairs.", "anchors": ["include/colorsystem.hpp: Bradford", "include/colorsystem.hpp: LMS"]}
{"id": "C120", "title": "XYZ to Oklab and back in binary32", "statement": "If the library's cbrtf has relative error at most 4*2^-24, then for every finite binary32 colour with components of magnitude at most 1e30, XYZ_to_OKLAB followed by OKLAB_to_XYZ in binary32 is finite and returns each component within 540*2^-24 times the largest component (plus 1e-37) of the original, including colours with negative cone responses.", "quantifier": "all binary32 colours of magnitude at most 1e30, every C library whose cbrtf is that accurate", "why_tests_cant": "A test checks a few colours against a tolerance and misses the cancellation in the two inverse matrices and the amplification of the error by the cube; this bound covers every colour.", "anchors": ["include/colorsystem.hpp: Delta::XYZ_to_OKLAB", "include/colorsystem.hpp: Delta::OKLAB_to_XYZ"]}
{"id": "C121", "title": "CIE 1960 u, v coordinates in binary32", "statement": "For non-negative finite XYZ with X+Y+Z between 2e-8 and 1e30, toYuv in binary32 returns Y unchanged and u = 4X/(X+15Y+3Z), v = 6Y/(X+15Y+3Z) with relative error at most 17*2^-24 (plus 1e-43). YxyToYuv followed by YuvToYxy returns any chromaticity in the unit triangle with relative error at most 48*2^-24 (plus 1e-43) in x and in y. toYuv followed by fromYuv returns Y bit for bit, X within 106*2^-24 X + 1e-30 and Z within 110*2^-24 (X+Y+Z), when the sum is between 1e-6 and 1e6 and y is at least 1e-6.", "quantifier": "all binary32 colours in the stated ranges; independent of the C library", "why_tests_cant": "The error depends on cancellation in the two denominators; tests compare a few colours at 1e-5.", "anchors": ["include/colorsystem.hpp: Tristimulus::toYuv", "include/colorsystem.hpp: Tristimulus::fromYuv", "include/colorsystem.hpp: Tristimulus::YxyToYuv", "include/colorsystem.hpp: Tristimulus::YuvToYxy"]}
{"id": "C122", "title": "Determinant and inverse of a 3x3 matrix in binary32", "statement": "For any matrix with finite entries of magnitude at most 1e9, the determinant computed in binary32 is within 7.01*2^-24*W + 2e-35 of the exact determinant D, where W is the sum of the absolute values of its six products. If |D| >= 1e-18 and W <= 20000 |D|, every entry of the inverse computed in binary32 is finite and within 12*2^-24*(W/|D|)*(P/|D|) + 1e-26 of the exact entry, where P is the sum of the absolute values of the two products of its cofactor.", "quantifier": "all binary32 matrices in the stated range, including ill-conditioned ones up to W/|D| = 20000; independent of the C library", "why_tests_cant": "Tests invert one or two well-conditioned matrices; this bound shows how the error grows with cancellation in the determinant, entry by entry.", "anchors": ["include/colorsystem.hpp: Matrix3::det", "include/colorsystem.hpp: Matrix3::invert"]}
{"id": "C123", "title": "ST 2084 decoding and its round trip in binary32", "statement": "With a C library whose powf is within two units in the last place, decoding a PQ pixel whose components are between 1e-5 and 1 gives, in binary32, values within a relative 4200*2^-24 (0.025 %) of the exact EOTF, and encoding then decoding any light value between 1e-10 and 100 returns it within a relative 8600*2^-24 (0.051 %).", "quantifier": "all binary32 pixels in the stated ranges, every C library meeting the accuracy hypothesis", "why_tests_cant": "The decoder subtracts two nearly equal numbers at both ends of its range (n - c1 near black, c2 - c3*n near white) and then raises the quotient to the power 6.28; tests at a few codes cannot bound the amplified error over the whole range.", "anchors": ["include/colorsystem.hpp: OTF::toScene", "include/colorsystem.hpp: OTF::toScreen"]}
{"id": "C124", "title": "Integer images survive another colour space and back in binary32", "statement": "Take a pixel of three integer codes of 0..M held as the binary32 values k/M, decode it with the sRGB transfer function, convert it, convert it back, and encode it with sRGB. With C library functions within 4 units of 2^-24, rounding M times each result to the nearest integer gives exactly the original codes: for every predefined gamut when the pixel goes to XYZ and back and M is at most 9000, for every pair of predefined gamuts when it goes to the other gamut and back by GamutConvert and M is at most 9000, and when it goes to HSV and back (which terminates) and M is at most 15000. So 8-, 10-, 12- (and for HSV 13-) bit images are unharmed.", "quantifier": "every accurate C library, every bit depth up to the bound, every pixel, every predefined gamut or pair of them", "why_tests_cant": "Even 8 bit pixels are 16.7 million and 12 bit ones 68 thousand million, times ten gamuts and ninety pairs, and a test sees one C library; the theorem covers all of them.", "anchors": ["include/colorsystem.hpp: OTF::toScene", "include/colorsystem.hpp: OTF::toScreen", "include/colorsystem.hpp: Gamut::toXYZ", "include/colorsystem.hpp: Gamut::fromXYZ", "include/colorsystem.hpp: GamutConvert", "include/colorsystem.hpp: Tristimulus::toHSV", "include/colorsystem.hpp: Tristimulus::fromHSV"]}
{"id": "C125", "title": "Integer images survive CIELAB, Yxy and Yuv and back in binary32", "statement": "Take a pixel of three integer codes of 0..M held as the binary32 values k/M, decode it with the sRGB transfer function, convert it to XYZ by one of the gamuts AdobeRGB, Rec709, Rec2020 or DCI_P3, convert that to another form and back, return to RGB and encode it with sRGB. With C library functions within 4 units of 2^-24, rounding M times each result to the nearest integer gives exactly the original codes: when the form is CIELAB relative to the white the gamut itself gives to (1,1,1) and M is at most 1050, when the form is Yxy and M is at most 4300, and when it is Yuv and M is at most 1040. Black (all codes 0) is included although Yxy divides by X+Y+Z. So 8 and 10 bit images survive CIELAB and Yuv, and 8, 10 and 12 bit images survive Yxy.", "quantifier": "every accurate C library, every bit depth up to the bound, every pixel, each of the four gamuts", "why_tests_cant": "A 10 bit image has a thousand million pixel values and a 12 bit one 68 thousand million, times four gamuts, and a test sees one C library; the theorem covers all of them.", "anchors": ["include/colorsystem.hpp: OTF::toScene", "include/colorsystem.hpp: OTF::toScreen", "include/colorsystem.hpp: Gamut::toXYZ", "include/colorsystem.hpp: Gamut::fromXYZ", "include/colorsystem.hpp: Tristimulus::toCIELAB", "include/colorsystem.hpp: Tristimulus::fromCIELAB", "include/colorsystem.hpp: Tristimulus::toYxy", "include/colorsystem.hpp: Tristimulus::fromYxy", "include/colorsystem.hpp: Tristimulus::toYuv", "include/colorsystem.hpp: Tristimulus::fromYuv"]}
{"id": "C126", "title": "8 bit images survive Oklab and back in binary32", "statement": "Take a pixel of three integer codes of 0..M, M at most 375, held as the binary32 values k/M, decode it with the sRGB transfer function, convert it to XYZ by one of the gamuts AdobeRGB, Rec709, Rec2020 or DCI_P3, convert that to Oklab and back, return to RGB and encode it with sRGB. With C library functions within 4 units of 2^-24 (cube root included), rounding M times each result to the nearest integer gives exactly the original codes.", "quantifier": "every accurate C library, every bit depth up to the bound, every pixel, each of the four gamuts", "why_tests_cant": "8 bit pixels are 16.7 million per gamut and depth, and a test sees one C library; the theorem covers all of them.", "anchors": ["include/colorsystem.hpp: OTF::toScene", "include/colorsystem.hpp: OTF::toScreen", "include/colorsystem.hpp: Gamut::toXYZ", "include/colorsystem.hpp: Gamut::fromXYZ", "include/colorsystem.hpp: Delta::XYZ_to_OKLAB", "include/colorsystem.hpp: Delta::OKLAB_to_XYZ"]}
{"id": "C127", "title": "Spectra are integrated accurately in binary32", "statement": "In binary32, fromSpectrum of each predefined observer (CIE1931, CIE31JV, CIE2012) applied to 400 finite samples of magnitude up to 2^100 is finite and within 805*2^-24 (0.005 %) of the exact integral, relative to the integral of the absolute values (for a non-negative spectrum: to the integral itself), plus 2^-134; the rounding of the colour matching tables and of their sums is included. fromReflectanceAndLight, for reflectance and light up to 2^50, is within 807*2^-24 likewise, and every patch of Macbeth::reference under CIE_D65 within 810*2^-24 of the value the decimal tables define.", "quantifier": "all finite binary32 spectra within the bounds, the three observers, all 24 patches, all C libraries", "why_tests_cant": "1200 roundings per component cannot be bounded by sampling spectra; a naive summation of signed spectra can lose every digit, so the bound must be relative to absolute values.", "anchors": ["include/colorsystem.hpp: Observer::fromSpectrum", "include/colorsystem.hpp: Observer::fromReflectanceAndLight", "include/colorsystem.hpp: Macbeth::reference"]}
{"id": "C128", "title": "Hotter black bodies are bluer", "statement": "For temperatures 0 < T < T' and any two of the 400 wavelengths, the ratio of the shorter-wavelength sample of Spectrum::blackbody to the longer-wavelength one is strictly larger at T' than at T (real arithmetic).", "quantifier": "all positive temperatures T < T', all pairs of wavelengths i < j", "why_tests_cant": "A wrong sign, exponent or unit in the Planck formula can keep every sample positive and increasing with temperature and still tilt the spectrum the wrong way; sampling cannot cover the continuum of temperatures.", "anchors": ["include/colorsystem.hpp: Spectrum::blackbody", "include/colorsystem.hpp: Spectrum::planck"]}
{"id": "C129", "title": "The chromaticity of a black body moves away from red as it heats up", "statement": "For each predefined observer (CIE1931, CIE31JV, CIE2012) and temperatures 800 <= T < T', toYxy of fromSpectrum of blackbody gives a strictly smaller x at T' than at T, and a strictly smaller x + y, that is a strictly larger z (real arithmetic, exact tables).", "quantifier": "all temperatures from 800 K upwards without limit, the three observers", "why_tests_cant": "Monotonicity over a continuum of temperatures up to infinity; it depends on every entry of the colour matching tables, a single misplaced digit can break it at some temperature.", "anchors": ["include/colorsystem.hpp: Spectrum::blackbody", "include/colorsystem.hpp: Observer::fromSpectrum", "include/colorsystem.hpp: Tristimulus::toYxy"]}
{"id": "C130", "title": "Default constructed stimuli and spectra are black, and spectra are accessed element by element", "statement": "Adding a default constructed Tristimulus to any stimulus without a negative zero, in either order, returns that stimulus bit for bit, NaN and infinities included; over the reals it stays zero under scaling, any matrix and any filter. A Spectrum can be indexed with 0..399 and any other index is undefined behaviour; add, mul and E act on each element alone, with one rounding, and a default constructed Spectrum reads 0 everywhere and integrates to (0, 0, 0) for every observer, in binary32 for the three predefined ones.", "quantifier": "all binary32 stimuli without negative zero, all real stimuli, matrices and factors, all spectra in any arithmetic, all int indices, all observers with non-zero sums", "why_tests_cant": "Universally quantified over bit patterns, indices and spectra; a default with one wrong component is invisible to tests that never build one.", "anchors": ["include/colorsystem.hpp: Tristimulus::Tristimulus", "include/colorsystem.hpp: Spectrum::Spectrum", "include/colorsystem.hpp: Spectrum::operator[]", "include/colorsystem.hpp: Spectrum::add", "include/colorsystem.hpp: Spectrum::mul", "include/colorsystem.hpp: Observer::fromSpectrum"]}
{"id": "C131", "title": "A gamut reproduces exactly the chromaticities inside its triangle", "statement": "For a Gamut built from three non-collinear primaries and a white inside their triangle, and any stimulus with X+Y+Z > 0, hasNegative of fromXYZ is false exactly when the chromaticity (x, y) of the stimulus lies in the closed triangle of the primaries. The predefined AdobeRGB, Rec709, Rec2020, DCI_P3, S_Gamut, S_Gamut3_Cine, ACEScg and ACES2065 are all of that kind, with the triangle given by primaryRed, primaryGreen and primaryBlue (real arithmetic).", "quantifier": "all primaries and whites within the guards, all real stimuli with positive sum, the eight predefined RGB gamuts", "why_tests_cant": "An equivalence over all stimuli, including the edges of the triangle; a test can probe points but not that the boundary is where the primaries say.", "anchors": ["include/colorsystem.hpp: Gamut::Gamut", "include/colorsystem.hpp: Gamut::fromXYZ", "include/colorsystem.hpp: Tristimulus::hasNegative", "include/colorsystem.hpp: Gamut::primaryRed", "include/colorsystem.hpp: Gamut::primaryGreen", "include/colorsystem.hpp: Gamut::primaryBlue"]}
{"id": "C132", "title": "Exposure by whole stops is exact", "statement": "In binary32, scaling a stimulus by a power of two between 2^-20 and 2^20 before or after a linear operation gives numerically identical results: applying a matrix, Gamut toXYZ and fromXYZ and GamutConvert for every pair of predefined gamuts, and integrating a scaled spectrum with each predefined observer. Scaled this way toHSV keeps hue and saturation and scales the value, toYxy keeps x and y and scales Y, toCIELAB against an equally scaled white is bit for bit the same, and so is the Bradford matrix of two equally scaled white points. Components must be 0 or of magnitude between 2^-40 and 2^40 (2^-30 and 2^40 for the gamuts, 2^-20 and 2^40 for spectra, 2^-10 and 2^10 for the white points of Bradford). For toHSV and toYxy they must be non-negative, for toYxy at least one must reach 2^-5, for toCIELAB they must be non-zero, and for Bradford the cone responses of the whites must be non-zero.", "quantifier": "all floats in the stated ranges, every C math library, all 100 pairs of predefined gamuts, the three predefined observers", "why_tests_cant": "Exact equality of rounded results for every input in a range of 80 binades; tests compare with a tolerance on a few values.", "anchors": ["include/colorsystem.hpp: Tristimulus::scale", "include/colorsystem.hpp: Matrix3::apply", "include/colorsystem.hpp: Gamut::toXYZ", "include/colorsystem.hpp: Gamut::fromXYZ", "include/colorsystem.hpp: GamutConvert", "include/colorsystem.hpp: Tristimulus::toHSV", "include/colorsystem.hpp: Tristimulus::toYxy", "include/colorsystem.hpp: Tristimulus::toCIELAB", "include/colorsystem.hpp: Bradford", "include/colorsystem.hpp: Observer::fromSpectrum", "include/colorsystem.hpp: Spectrum::scale"]}
{"id": "C133", "title": "S-Log and S-Log2 integer codes survive from black up", "statement": "In binary32 with an accurate C math library, for every M up to 524288 an integer code k of M decoded by SLog_to_Y and encoded again by Y_to_SLog comes back nearer to k than to any other integer, provided k is at least 0.0300013 M; codes up to 0.0300012 M, which lie below black, come back within half a code of black (between 0.0300012 M and 0.0300013 M). The same holds for SLog2_to_Y and Y_to_SLog2 with black between 0.088165 M and 0.0881652 M.", "quantifier": "all 0 <= k <= M, all 0 < M <= 524288, every accurate C math library", "why_tests_cant": "Every code of every bit depth up to 19 bits and every accurate libm; the repository round-trips single values with a loose tolerance.", "anchors": ["include/colorsystem.hpp: Y_to_SLog", "include/colorsystem.hpp: SLog_to_Y", "include/colorsystem.hpp: Y_to_SLog2", "include/colorsystem.hpp: SLog2_to_Y"]}
{"id": "C134", "title": "S-Log3 integer codes survive", "statement": "An integer code k of M decoded by SLog3_to_Y and encoded again by Y_to_SLog3 comes back nearer to k than to any other integer.", "quantifier": "all 0 <= k <= M, every accurate C math library", "why_tests_cant": "Quantifies over every code of every bit depth and every accurate libm.", "anchors": ["include/colorsystem.hpp: Y_to_SLog3", "include/colorsystem.hpp: SLog3_to_Y"]}
{"id": "C135", "title": "Symmetries of HSV", "statement": "In exact arithmetic, for every colour that is not grey, moving red to green, green to blue and blue to red turns the hue returned by toHSV by 120 degrees and exchanging green and blue mirrors it, both without changing saturation and value. Multiplying every channel by the same positive factor multiplies the value and keeps hue and saturation; adding the same amount to every channel keeps the hue and adds it to the value, and keeps saturation times value when neither value is 0.", "quantifier": "all real channel values (negative ones included), all positive factors and all amounts added", "why_tests_cant": "An identity between the results of two calls over a continuum of colours.", "anchors": ["include/colorsystem.hpp: Tristimulus::toHSV"]}
{"id": "C136", "title": "Accuracy of HSV in binary32", "statement": "For all finite channels between 0 and 2^120 toHSV terminates in binary32; the value is exactly the largest channel, the saturation is within 2.01*2^-24 of the exact one and the hue within 602*2^-24 degrees of the exact one, measured around the circle. Permuting the channels does not change saturation and value at all.", "quantifier": "all non-negative finite float colours up to 2^120, all six channel orders", "why_tests_cant": "An error bound for every triple of floats.", "anchors": ["include/colorsystem.hpp: Tristimulus::toHSV"]}
{"id": "C137", "title": "Interpolation of spectra in binary32", "statement": "For every float wavelength t with 380+i <= t < 381+i (1 <= i <= 398) and every spectrum of 400 finite samples of magnitude up to 2^126, fetch returns the linear interpolation between samples i and i+1 with an error of at most 2.01*2^-24 times the interpolation of their magnitudes plus 3*2^-150: the sample index is never off by one. For 380 <= t < 381 it returns sample 0 exactly. A constant spectrum is not always returned unchanged: with c = 0.47 the value at 400.1 nm is below c.", "quantifier": "all floats t in [380,779), all finite spectra up to 2^126", "why_tests_cant": "The index is a truncated rounded quotient; an off-by-one could occur at any of millions of floats just below a grid point.", "anchors": ["include/colorsystem.hpp: Spectrum::fetch"]}
{"id": "C138", "title": "Spectra built from samples on another grid, in binary32", "statement": "Building a Spectrum from n samples (1 <= n <= 65536) spread over [lo,hi], with lo and hi finite, in [-4096,4096] and hi >= lo+1, never reads outside the n samples and never performs an undefined conversion, and gives 400 values. With lo = hi, or with no samples, the constructor is undefined behaviour whatever the other arguments. On a grid lo, lo+d, ..., hi of whole nanometres (0 <= lo, d >= 1, n >= 2, hi <= 4000) with finite samples up to 2^125 in magnitude, all 400 values are finite; the value at a wavelength w below lo+d is the first sample, at w >= hi the last sample, and in between it is the linear interpolation of the two neighbouring samples a and b within 5*2^-24*(|a|+|b|) + 3*2^-150. Note that the whole first interval takes the first sample instead of being interpolated.", "quantifier": "all sample lists, all ranges as stated, all 400 output wavelengths", "why_tests_cant": "The index is a truncated rounded quotient; an off-by-one could read past the end for some particular n, lo and hi.", "anchors": ["include/colorsystem.hpp: Spectrum::Spectrum", "include/colorsystem.hpp: Spectrum::fetch"]}
{"id": "C139", "title": "Black bodies in floating point", "statement": "With a C library whose double pow and exp are within two units in the last place, for every float temperature T in [100, 1e7] Spectrum::blackbody(T) gives 400 finite samples, each within 2.01*2^-24 relative plus 2^-149 of what the formula of planck gives in exact arithmetic; in particular the subtraction of 1 from the exponential does no harm. The tristimulus values of the black body by each predefined observer (CIE1931, CIE31JV, CIE2012) are finite and within 808*2^-24 (0.005 %) relative plus 2^-133 of the exact ones.", "quantifier": "all float temperatures in [100, 1e7], all 400 wavelengths, the three observers, all libraries as accurate as stated", "why_tests_cant": "The error depends on the C library and on every one of a billion temperatures.", "anchors": ["include/colorsystem.hpp: Spectrum::planck", "include/colorsystem.hpp: Spectrum::blackbody", "include/colorsystem.hpp: Observer::fromSpectrum"]}
{"id": "C140", "title": "Greys stay grey in binary32", "statement": "In binary32: (a) converting a grey (g,g,g) between two predefined gamuts with the same white point (AdobeRGB, Rec709, Rec2020, S_Gamut, S_Gamut3_Cine; or ACEScg, ACES2065) gives back g in every channel within 32 u |g| + 4 eta; (b) a grey pixel of sRGB codes k of M, decoded, so converted and encoded, rounds to the same three codes for every M up to 13000; (c) for all ten predefined gamuts CIELAB of a grey level against the gamut's own white has |a*| <= 0.001, |b*| <= 0.0004 and L* within 0.00012 of the exact lightness; (d) HSV of a grey has hue 0 and saturation 0 exactly, and the way back returns the same grey exactly. Gamuts with different whites do turn greys into colours.", "quantifier": "all finite grey levels (up to 2^110 for conversion, 0 or 1e-30..1 for CIELAB, up to 2^127 for HSV), all pairs of gamuts, all codes, every accurate math library", "why_tests_cant": "There are 2^30 grey levels in [0,1] for each of the 29 pairs of gamuts, and the residual chroma depends on the rounding of each matrix entry.", "anchors": ["include/colorsystem.hpp: GamutConvert", "include/colorsystem.hpp: Matrix3::apply", "include/colorsystem.hpp: Tristimulus::toCIELAB", "include/colorsystem.hpp: Tristimulus::toHSV", "include/colorsystem.hpp: Tristimulus::fromHSV", "include/colorsystem.hpp: OTF::toScene", "include/colorsystem.hpp: OTF::toScreen"]}
{"id": "C141", "title": "Order of values through the transfer functions in binary32", "statement": "In binary32, with an accurate math library whose pow, exp, log and log10 are monotone, raising channels never lowers a channel of the result: toScene for SRGB (all finite values), ST2084 and GAMMA (values in [0,1]), HLG (up to 10), SLOG (within [-5,5]); toScreen for BT709 and SLOG (all finite values), HLG (up to 1e20), SLOG3 (within [-1e6,1e6]), GAMMA (values in [0,1], exponent from 1e-6 to 1e6). The switches between segments included: the results there are in order although the segments do not meet exactly. In particular sRGB, PQ and HLG code values of any depth up to 24 bits decode in order.", "quantifier": "all pairs of finite triples in order within the stated ranges, all code values and depths, every accurate and monotone math library", "why_tests_cant": "There are 2^59 ordered pairs of floats per curve, and the order at a switch hangs on a few units of rounding (a quarter of a unit for HLG).", "anchors": ["include/colorsystem.hpp: OTF::toScene", "include/colorsystem.hpp: OTF::toScreen"]}
{"id": "C142", "title": "sRGB encoding and BT.709 decoding keep the order of values", "statement": "toScreen with SRGB and toScene with BT709 never lower a channel when the input channel is raised, in binary32 with an accurate math library.", "quantifier": "all pairs of finite values in order, every accurate math library", "why_tests_cant": "The drop in sRGB encoding is between two neighbouring floats; that in BT.709 decoding shows in no 8- or 10-bit code.", "anchors": ["include/colorsystem.hpp: OTF::toScene", "include/colorsystem.hpp: OTF::toScreen"]}
{"id": "C143", "title": "Colours at a distance from the locus, in binary32", "statement": "fromCCT in binary32 returns the colour that its formula describes with the accuracy of fromCT, that is within a few tens of units of rounding of Y.", "quantifier": "finite temperatures from 1667 to 10000 K, offsets dUV within 0.05, luminances from 1e-6 to 1e6", "why_tests_cant": "The repository has no test of fromCCT; the error depends erratically on the temperature (it comes from the difference of two nearly equal points) and exceeds one percent only at isolated temperatures.", "anchors": ["include/colorsystem.hpp: Tristimulus::fromCCT", "include/colorsystem.hpp: Tristimulus::CCT_x_approx", "include/colorsystem.hpp: Tristimulus::CCT_y_approx"]}
{"id": "C144", "title": "Streams in release builds", "statement": "With assertions compiled out (NDEBUG) no sequence of stream calls reaches undefined behaviour where the asserting build stops at an assertion; in particular a cursor moved outside the buffer by fseek is harmless.", "quantifier": "all streams below 2^31 bytes, all cursors, all sequences of calls", "why_tests_cant": "The test build has assertions enabled; what happens when they are compiled out is never run, and the number of call sequences is unbounded.", "anchors": ["include/colorsystem.hpp: MemoryStream::fseek", "include/colorsystem.hpp: MemoryStream::putUint8", "include/colorsystem.hpp: MemoryStream::read", "include/colorsystem.hpp: MemoryStream::write"]}
{"id": "C145", "title": "Raw access to a stream's bytes", "statement": "The address returned by ptr(p) or ptr() gives access to exactly the stream's bytes: a load returns the byte that get_at and the next read return, a store changes that byte only and is visible to every reader; it is undefined at the end of the stream and for an empty stream. After the vector is shortened through buffer() below the cursor, reads give zero or nothing and typed writes stop at the assertion.", "quantifier": "all streams, positions, offsets and byte values", "why_tests_cant": "Tests never use the raw accessors; boundary positions and all buffers cannot be enumerated.", "anchors": ["include/colorsystem.hpp: MemoryStream::ptr", "include/colorsystem.hpp: MemoryStream::buffer", "include/colorsystem.hpp: MemoryStream::get_at", "include/colorsystem.hpp: MemoryStream::getUint8"]}
{"id": "C146", "title": "ICtCp and its colour difference in binary32", "statement": "For every XYZ colour with cone responses from 2^-48 to 2^100, each not much smaller than the terms it is summed from, in particular for every colour inside BT.2020, the ICtCp values computed in float with an accurate pow are finite and within 0.0000264 (I), 0.000176 (Ct) and 0.000231 (Cp) of the exact ones. The ICtCp difference of two such colours is within 0.000501 of the exact difference, so it falls below the just noticeable 1/720 for exact differences up to 0.00088 and above it from 0.0019. Black gives exactly (0,0,0), and a colour above 10000 cd/m2 in every cone exactly (1,0,0), with any library.", "quantifier": "all finite colours seen by the three cones, all pairs of them, all accurate math libraries", "why_tests_cant": "The PQ exponent 78.84 amplifies rounding errors; float triples cannot be enumerated and the test compares a few colours loosely.", "anchors": ["include/colorsystem.hpp: XYZ_to_ICtCp", "include/colorsystem.hpp: Delta::ICtCp", "include/colorsystem.hpp: OTF::Y_to_ST2084", "include/colorsystem.hpp: Gamut::Rec2020"]}
{"id": "C147", "title": "The length function of the solver in binary32", "statement": "For finite floats, SOLVER::PYTHAG(a,b) is finite and within 3.2505*2^-24 relative (plus 2^-150) of sqrt(a^2+b^2) whenever that length is at most (1-2^-22)*2^128, so it neither overflows nor underflows on the way; it is never shorter than |a| or |b|, exactly symmetric in its arguments and independent of their signs, and PYTHAG(a,0) = |a| exactly. DSIGN(a,b) is |a| for b > 0 and -|a| otherwise, zero included.", "quantifier": "all pairs of finite floats", "why_tests_cant": "Two floats make 2^64 pairs; no test calls the function, and naive a*a+b*b passes ordinary examples.", "anchors": ["include/colorsystem.hpp: SOLVER::PYTHAG", "include/colorsystem.hpp: SOLVER::DSIGN"]}
{"id": "C148", "title": "Not a number in the solver's length function", "statement": "SOLVER::PYTHAG(a,b) is NaN whenever a or b is NaN.", "quantifier": "all floats", "why_tests_cant": "No test passes NaN to the solver.", "anchors": ["include/colorsystem.hpp: SOLVER::PYTHAG"]}
{"id": "C149", "title": "Back-substitution in binary32", "statement": "For m equations and n unknowns (m, n up to 65536), singular vectors with elements up to 2 in magnitude, right-hand sides up to 2^40 and singular values that are 0 or at least 2^-40, SOLVER::svbksb returns finite x with each x[j] within 1.02*(m+n+3)*2^-24 * sum_k |V[j][k]| * (sum_i |U[i][k]*b[i]|)/|w[k]| + 2^-73 of the exact result for the same U, w, V and b (terms with w[k] = 0 left out of both).", "quantifier": "all sizes up to 65536, all matrices and vectors of finite floats in range", "why_tests_cant": "Rounding errors accumulate with the size; no finite set of systems covers them.", "anchors": ["include/colorsystem.hpp: SOLVER::svbksb"]}
{"id": "C150", "title": "Which gamuts contain the chart and the TM-30 samples", "statement": "Under CIE_D65 and with each of the three predefined observers, every mixture with non-negative weights of the 24 Macbeth patches and the 99 TM-30 samples, converted with Gamut::fromXYZ, has no negative component in AdobeRGB, Rec2020, DCI_P3, S_Gamut, S_Gamut3_Cine, ACEScg and ACES2065. In Rec709 exactly seven of the 123 surfaces have a negative component - the chart's cyan patch and samples 53, 57, 58, 64, 66 and 67, each with negative red - and every mixture of the others has none. In binary32 arithmetic hasNegative() gives the same verdict for each of the 123 surfaces.", "quantifier": "all mixtures of the 123 surfaces (real weights), three observers, eight gamuts; for binary32 each surface, observer and gamut and any math library", "why_tests_cant": "The mixtures form a 123-dimensional cone; testing each surface says nothing about mixtures, nor whether a near-zero component has the right sign.", "anchors": ["include/colorsystem.hpp: Macbeth::Patch", "include/colorsystem.hpp: TM_30_15::sample", "include/colorsystem.hpp: Observer::fromReflectanceAndLight", "include/colorsystem.hpp: Gamut::fromXYZ", "include/colorsystem.hpp: Tristimulus::hasNegative"]}
{"id": "C151", "title": "Small changes of the colours change the CIE 2000 difference little", "statement": "With unit weights, Delta::E00 is continuous in the two colours: colours close to (p, q) have a difference close to E00(p, q).", "quantifier": "all pairs of real Lab colours (real arithmetic)", "why_tests_cant": "The jump happens on a set of measure zero: random tests never land on opposite hues, and a pair on either side of it looks like two ordinary values.", "anchors": ["include/colorsystem.hpp: Delta::E00"]}
{"id": "C152", "title": "Accuracy when the compiler fuses multiplications and additions", "statement": "The rounding-error bounds of Matrix3::apply (C06), of Spectrum::dot (C61), of the determinant (C122) and of Gamut::toXYZ and fromXYZ of the ten predefined gamuts (C96) hold whichever products the compiler fuses with the following addition or subtraction. Integer matrices applied to integer vectors (sums of at most 2^24) are exact with any choice. In general the choice matters: there is a matrix and a vector for which the unfused result is 0 and a fused one is 2^-24.", "quantifier": "all binary32 matrices, vectors and spectra without overflow, and all choices of fused operations (2^399 for a spectrum)", "why_tests_cant": "Each build makes one choice, and it changes with compiler, flags and target; a test run sees only the choice of the machine it runs on.", "anchors": ["include/colorsystem.hpp: Matrix3::apply", "include/colorsystem.hpp: Matrix3::det", "include/colorsystem.hpp: Spectrum::dot", "include/colorsystem.hpp: Gamut::toXYZ", "include/colorsystem.hpp: Gamut::fromXYZ"]}
{"id": "C153", "title": "Round trips and images when the compiler fuses multiplications and additions", "statement": "Whichever products the compiler fuses with the following addition or subtraction: a colour sent to XYZ and back through any of the ten predefined gamuts, or from one gamut to another and back, returns within 50 half-ulps (of the largest component) of itself, the bound of C95, even when both calls are inlined into one expression and an intermediate value is recomputed differently for each use; the sRGB and BT.709 decoders give the same float, and the encoders stay within 9 half-ulps of 1 of the exact curve (except BT.709 at the float 0.018, see C99); images of integer codes up to 9000 per channel decoded from sRGB, sent through XYZ or another gamut and back, and encoded again give the same codes.", "quantifier": "all finite colours with components up to 2^110, all choices of fused operations, all code depths up to 9000, all mathematical libraries within two units in the last place (PLibm.v)", "why_tests_cant": "A build makes one choice per call site; a test of another compiler, flag or inlining decision is a different experiment, and the images are too many to enumerate.", "anchors": ["include/colorsystem.hpp: Gamut::toXYZ", "include/colorsystem.hpp: Gamut::fromXYZ", "include/colorsystem.hpp: GamutConvert", "include/colorsystem.hpp: OTF::toScreen", "include/colorsystem.hpp: OTF::toScene", "include/colorsystem.hpp: OTF::Y_to_sRGB", "include/colorsystem.hpp: OTF::Y_to_BT709"]}
{"id": "C154", "title": "Accuracy of the CIE 2000 colour difference in single precision", "statement": "For two L*a*b* colours with L in [0, 100], |a| and |b| at most 128, chroma at least 1/8, b not zero (and at least 1/8 in size unless a is negative, which keeps the hue angle away from its wrap at zero), whose hues are not opposite (the signs of b agree, or |a1 b2 - a2 b1| >= 1), the colour difference computed in single precision with unit weights is finite and within 0.004 + 0.2 % of the published CIEDE2000 value: rounding, the library functions and the mean-hue defect of C41 together.", "quantifier": "all pairs of binary32 colours in the stated region, all mathematical libraries with pow within two units in the last place, sin and cos within 4 * 2^-24, atan2 within 16 * 2^-24, exp of non-positive arguments within 4 * 2^-24, and exact fmod", "why_tests_cant": "Published test data has 34 pairs; the region has about 10^40. Where the formula jumps (C151) no such bound can hold, so a random test can neither confirm a bound nor tell a jump from an error.", "anchors": ["include/colorsystem.hpp: Delta::E00"]}
{"id": "C155", "title": "Crosstalk matrices in single precision", "statement": "For a ratio r from 0 to 0.2, mixing a colour with crosstalk(r) and unmixing it with crosstalkInvert(r), or the other way round, gives every finite colour (components up to 2^110) back within 50 * 2^-24 of its largest component plus 128 * 2^-150, without overflow; a neutral (v,v,v) stays within 6 * 2^-24 relative of itself in each component, but not exactly neutral: some ratio turns white into a colour whose first and third components differ.", "quantifier": "all binary32 ratios from 0 to 0.2001, all binary32 colours up to 2^110", "why_tests_cant": "10^9 ratios times 10^28 colours; exact arithmetic (C05) promises exact neutrality, so a test written from the formula fails on some inputs and passes on others", "anchors": ["include/colorsystem.hpp: Matrix3::crosstalk", "include/colorsystem.hpp: Matrix3::crosstalkInvert"]}
{"id": "C156", "title": "Accuracy of the arctangent HSV conversion in single precision", "statement": "For channels between 0 and 2^120 with different green and blue, whose spread D = largest - smallest is at least 2^-100 and at least 1/65536 of the largest channel M, toHSV_atan terminates in single precision with a hue between 0 and 360; the value is exactly the largest channel, the saturation is within 2.01 * 2^-24 of the exact one and the hue, measured around the circle, within (140 M/D + 2100) * 2^-24 degrees of the exact one.", "quantifier": "all binary32 colours in the stated range, all mathematical libraries whose atan2 is within 16 * 2^-24", "why_tests_cant": "an error bound over 10^28 colours; the error grows near the grey axis, where sampled tests have the fewest points", "anchors": ["include/colorsystem.hpp: Tristimulus::toHSV_atan", "include/colorsystem.hpp: Tristimulus::mod360"]}
{"id": "C157", "title": "A NaN is never silently turned into a number by matrices, conversions, differences or spectra", "statement": "In single precision a NaN in any channel of the input is still visible in the output: applying any matrix, converting to or from Oklab or ICtCp, and integrating a spectrum with a NaN sample give NaN in every channel; inverting a matrix with a NaN entry gives all NaN, a product with such a matrix has a NaN entry, and the Bradford matrix of a NaN white is all NaN; toYxy and toYuv give NaN in both chromaticity channels; fromYuv, toCIELAB, fromCIELAB and (when it returns) fromHSV keep a NaN in some channel; E76, E00, UV and ICtCp differences are NaN; every transfer function except the S-Log2 decoder keeps the NaN in its channel; toHSV_atan gives a NaN hue.", "quantifier": "all binary32 colours, matrices, spectra, whites, weights and observers; any mathematical library (one returning NaN for NaN where the function calls it)", "why_tests_cant": "NaN inputs are rarely sampled, and each formula has branches (thresholds, clamps) in which a NaN could be dropped", "anchors": ["include/colorsystem.hpp: Matrix3", "include/colorsystem.hpp: Gamut", "include/colorsystem.hpp: Tristimulus", "include/colorsystem.hpp: Delta", "include/colorsystem.hpp: Observer", "include/colorsystem.hpp: OTF"]}
{"id": "C158", "title": "toHSV, the S-Log2 decoder and fromYxy show a NaN input in their output", "statement": "If an input channel of toHSV, of the S-Log2 decoder or of fromYxy is a NaN, some channel of the output is a NaN.", "quantifier": "all binary32 colours", "why_tests_cant": "the loss depends on which channel holds the NaN and on the order of comparisons", "anchors": ["include/colorsystem.hpp: Tristimulus::toHSV", "include/colorsystem.hpp: OTF::SLog2_to_Y", "include/colorsystem.hpp: Tristimulus::fromYxy"]}
{"id": "C159", "title": "toHSV returns for every colour", "statement": "In single precision toHSV and toHSV_atan return for every colour.", "quantifier": "all binary32 colours, including infinities and NaN", "why_tests_cant": "the failing colours are finite but brighter than about 1e37; a test that hits one does not fail but recurses until the stack is exhausted", "anchors": ["include/colorsystem.hpp: Tristimulus::toHSV", "include/colorsystem.hpp: Tristimulus::mod360", "include/colorsystem.hpp: Tristimulus::toHSV_atan"]}
{"id": "C160", "title": "A NaN measurement makes the solver's answer NaN", "statement": "In single precision, if an entry of the right-hand side given to the linear solver (or a target colour given to the corrector) is NaN, the solution (the matrix) contains a NaN.", "quantifier": "all binary32 systems that are not wide, of any size; all patch and target lists; any mathematical library", "why_tests_cant": "the outcome depends on the computed singular values and on every branch of the threshold step, for systems of every size", "anchors": ["include/colorsystem.hpp: SOLVER::solve", "include/colorsystem.hpp: SOLVER::svbksb", "include/colorsystem.hpp: Corrector::solve"]}
{"id": "C161", "title": "fromHSV returns for every triple", "statement": "In single precision converting an HSV triple to RGB returns for every triple, in particular for what toHSV produced.", "quantifier": "all binary32 triples, including infinities and NaN", "why_tests_cant": "undefined behaviour and non-termination cannot be observed by a test, and NaN hues arise only from colours with infinite or NaN channels", "anchors": ["include/colorsystem.hpp: Tristimulus::fromHSV", "include/colorsystem.hpp: Tristimulus::mod360", "include/colorsystem.hpp: Tristimulus::toHSV"]}
{"id": "C162", "title": "Euclidean colour differences when the compiler fuses multiplications and additions", "statement": "Whichever squares the compiler fuses with the following addition: Delta::E76 and Delta::UV of finite colours whose components differ by at most 2^60 are finite and within 4*2^-24 relative (plus 2^-73) of the Euclidean distance, the bounds of C94; exchanging the colours gives numerically the same values; the difference of a colour to itself is 0. The choice does change the last bits of the result.", "quantifier": "all such pairs of binary32 colours and all choices of fused operations", "why_tests_cant": "each build makes one choice; a test run sees only the choice of the machine it runs on", "anchors": ["include/colorsystem.hpp: Delta::E76", "include/colorsystem.hpp: Delta::UV"]}
{"id": "C163", "title": "Euclidean colour differences are distances in binary32", "statement": "In single precision Delta::E76 and Delta::UV satisfy the triangle inequality and are 0 only for equal colours.", "quantifier": "all triples of finite binary32 colours whose components differ by at most 2^60; any mathematical library", "why_tests_cant": "the violations are in the last bit or below 1e-22 and need specially chosen colours; the bound is over 2^288 triples", "anchors": ["include/colorsystem.hpp: Delta::E76", "include/colorsystem.hpp: Delta::UV"]}
{"id": "C164", "title": "Oklab there and back when the compiler fuses multiplications and additions", "statement": "Whichever products of the two matrix applications of XYZ_to_OKLAB and of OKLAB_to_XYZ the compiler fuses with the following addition, independently in the two functions and in every row: for every library whose cbrtf has relative error at most 4*2^-24, a finite colour of magnitude at most 1e30 converted to Oklab and back is finite and within 540*2^-24 of its largest component (plus 1e-37) of the original, the bound of C120. The choice does change the last bits of the result.", "quantifier": "all such binary32 colours, all libraries with such a cbrtf and all choices of fused operations", "why_tests_cant": "each build makes one choice; a test run sees only the choice of the machine it runs on", "anchors": ["include/colorsystem.hpp: XYZ_to_OKLAB", "include/colorsystem.hpp: OKLAB_to_XYZ"]}
{"id": "C165", "title": "HSV when the compiler fuses multiplications and subtractions", "statement": "Converting to HSV has nothing to fuse: its result does not depend on the compiler's choice. Converting from HSV multiplies before it subtracts; whichever of these the compiler fuses, for every hue up to 2^33 in magnitude, saturation in [0,1] and finite value >= 0 the components are between 0 and the value, one equals it, and the smallest is within 3.01*2^-24 (relative to the value) of v(1-s), as in C91; and fromHSV(toHSV(rgb)) is within 24*2^-24 of the largest component (plus 2^-150) of rgb for all components in [0,2^120], as in C92. The choice does change the last bits of the result.", "quantifier": "all such binary32 triples and all choices of fused operations", "why_tests_cant": "each build makes one choice; a test run sees only the choice of the machine it runs on", "anchors": ["include/colorsystem.hpp: Tristimulus::toHSV", "include/colorsystem.hpp: Tristimulus::fromHSV", "include/colorsystem.hpp: Tristimulus::mod360"]}
{"id": "C166", "title": "Which values the compiler's fusing allows", "statement": "A sum or difference of a product and a number (a*b+c, c+a*b, a*b-c, c-a*b) has exactly two possible results for operands well inside the range (product and third operand up to 2^125): the one rounded after the product and again after the sum, and the one rounded once. The dot product of two vectors, or of two colours, with products up to 2^120 has exactly six candidate results: three for the first sum, each completed in two ways. Nothing else is left to the compiler: a single addition, subtraction, multiplication, division, negation or library call has one result, and comparisons and truncations of given numbers one outcome.", "quantifier": "all finite binary32 operands in the stated ranges; for single operations all binary32 operands", "why_tests_cant": "a test runs one build, which makes one of the choices; that no further result is possible is a statement about all builds", "anchors": ["include/colorsystem.hpp: Vector3::dot", "include/colorsystem.hpp: Tristimulus::dot"]}
{"id": "C167", "title": "CIE 1960 u, v when the compiler fuses multiplications and additions", "statement": "The conversions between Yxy and Yuv subtract and add products. Whichever of these the compiler fuses: for non-negative finite XYZ with X+Y+Z between 2e-8 and 1e30, toYuv returns Y unchanged and u = 4X/(X+15Y+3Z), v = 6Y/(X+15Y+3Z) with relative error at most 21*2^-24 (plus 1e-43); YxyToYuv followed by YuvToYxy returns any chromaticity in the unit triangle with relative error at most 76*2^-24 (plus 1e-43); toYuv followed by fromYuv returns Y bit for bit, X within 162*2^-24 X + 1e-30 and Z within 166*2^-24 (X+Y+Z), when the sum is between 1e-6 and 1e6 and y is at least 1e-6, even if the two conversions are compiled differently. The choice does change the last bit of u for some colours.", "quantifier": "all binary32 colours in the stated ranges, all choices of fused operations; independent of the C library", "why_tests_cant": "each build makes one choice; a test run sees only the choice of the machine it runs on", "anchors": ["include/colorsystem.hpp: Tristimulus::toYuv", "include/colorsystem.hpp: Tristimulus::fromYuv", "include/colorsystem.hpp: Tristimulus::YxyToYuv", "include/colorsystem.hpp: Tristimulus::YuvToYxy"]}
{"id": "C168", "title": "CIELAB when the compiler fuses multiplications and additions", "statement": "The conversions to and from CIELAB add 16 to and subtract 16 from products. Whichever of these the compiler fuses: with any C library whose powf, expf, logf and log10f are within 2 units in the last place, toCIELAB of finite non-negative XYZ up to 2^100 with white components between 2^-20 and 2^20 is within 850, 6400 and 2550 times 2^-24 of the exact L*, a*, b*; fromCIELAB of L* in [0,100], |a*| up to 500, |b*| up to 200 is within 22*2^-24 of the exact XYZ, relative to the white component; toCIELAB followed by fromCIELAB returns the colour clipped to the white point within 83*2^-24 relative to the white component, even if the two conversions are compiled differently. Which branch of the curve is taken does not depend on the choice. The choice does change L* of a dark grey.", "quantifier": "all binary32 colours and whites in the stated ranges, all choices of fused operations, all accurate C libraries", "why_tests_cant": "each build makes one choice and links one library; a test run sees only those of the machine it runs on", "anchors": ["include/colorsystem.hpp: Tristimulus::toCIELAB", "include/colorsystem.hpp: Tristimulus::fromCIELAB", "include/colorsystem.hpp: Tristimulus::CIELAB_curve", "include/colorsystem.hpp: Tristimulus::CIELAB_decurve"]}
{"id": "C169", "title": "ST 2084 and HLG when the compiler fuses multiplications and additions", "statement": "The ST 2084 encoder adds two products to constants and the HLG encoder one. Whichever of these the compiler fuses: with any C library whose powf, expf, logf and log10f are within 2 units in the last place, Y_to_ST2084 of a finite luminance of at least 2^-50 has relative error at most 437*2^-24; Y_to_HLG of a finite signal between 2^-100 and 12 is within 4.1*2^-24 of the exact code, and HLG_to_Y returns the signal within 450*2^-24, below 1 with relative error at most 3.01*2^-24, even if the two are compiled differently. HLG_to_Y, and Y_to_HLG below 1, do not depend on the choice, whatever the library.", "quantifier": "all binary32 arguments in the stated ranges, all choices of fused operations, all accurate C libraries", "why_tests_cant": "each build makes one choice and links one library; a test run sees only those of the machine it runs on", "anchors": ["include/colorsystem.hpp: OTF::Y_to_ST2084", "include/colorsystem.hpp: OTF::Y_to_HLG", "include/colorsystem.hpp: OTF::HLG_to_Y"]}
