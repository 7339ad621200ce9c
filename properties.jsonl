{"id": "C01", "title": "Quantising to 8/16 bits is total, saturating and nearest", "statement": "Converting any RGBf32 or RGBf64 to RGBu8 or RGBu16 never fails; each channel is an integer in 0..=255 (0..=65535), 0 for NaN and for anything <= 0, the maximum for anything >= 1, and otherwise within half a code (plus one rounding of the scaled product) of the exact scaled value.", "quantifier": "every bit pattern of every channel, both float widths, both integer widths", "why_tests_cant": "There are 2^32 / 2^64 bit patterns per channel, including NaN, infinities, subnormals and values next to every rounding boundary; a test samples a handful.", "anchors": ["src/rgb.rs: From<RGBf32> for RGBu8", "src/rgb.rs: From<RGBf64> for RGBu16", "src/math.rs: clamp"]}
{"id": "C02", "title": "Quantising preserves order", "statement": "If one channel value is <= another (neither NaN), its 8-bit (16-bit) code is <= the other's code.", "quantifier": "every pair of non-NaN channel values of either float width", "why_tests_cant": "There are 2^32 / 2^64 bit patterns per channel, including NaN, infinities, subnormals and values next to every rounding boundary; a test samples a handful.", "anchors": ["src/rgb.rs: From<RGBf32> for RGBu8", "src/math.rs: clamp"]}
{"id": "C03", "title": "Integer pixels survive a trip through floating point", "statement": "RGBu8 -> RGBf32 -> RGBu8, RGBu8 -> RGBf64 -> RGBu8, RGBu16 -> RGBf32 -> RGBu16 and RGBu16 -> RGBf64 -> RGBu16 return exactly the original pixel; so does RGBu8/RGBu16 -> RGBf64 -> RGBf32 -> RGBu8/RGBu16.", "quantifier": "every 8-bit and 16-bit pixel, every rounding of the two float operations", "why_tests_cant": "2^48 pixels; and the result depends on rounding of a division followed by a rounded product.", "anchors": ["src/rgb.rs: From<RGBu8> for RGBf32", "src/rgb.rs: From<RGBu16> for RGBf32", "src/rgb.rs: From<RGBf64> for RGBf32"]}
{"id": "C04", "title": "clamp lands in the interval and changes nothing inside it", "statement": "For a <= b, clamp(x,a,b) is in [a,b] for every non-NaN x, equals x when x is already inside, is idempotent and monotone; NaN x is returned unchanged; clamprgb does the same per channel.", "quantifier": "every x, a, b of either float width", "why_tests_cant": "There are 2^32 / 2^64 bit patterns per channel, including NaN, infinities, subnormals and values next to every rounding boundary; a test samples a handful.", "anchors": ["src/math.rs: clamp", "src/rgb.rs: clamprgb"]}
{"id": "C05", "title": "normalize makes the largest channel exactly 1", "statement": "normalize(c) returns a colour whose largest component is exactly 1.0, as documented, for every finite colour.", "quantifier": "every finite RGBf32/RGBf64 colour", "why_tests_cant": "There are 2^32 / 2^64 bit patterns per channel, including NaN, infinities, subnormals and values next to every rounding boundary; a test samples a handful.", "anchors": ["src/rgb.rs: hmax", "src/rgb.rs: normalize"]}
{"id": "C06", "title": "Channel indexing reads what was written and rejects indices above 2", "statement": "c[i] for i=0,1,2 is the r,g,b (x,y,z) field, writing c[i]=v changes that channel only and is read back, and any index >= 3 panics rather than returning a value; m[i][j] on a matrix is entry 3*i+j, and panics exactly when i or j >= 3.", "quantifier": "every colour or matrix value, every usize index", "why_tests_cant": "Indices range over all of usize and the frame condition over all values.", "anchors": ["src/rgb.rs: Index for RGBf", "src/xyz.rs: Index for XYZ", "src/math.rs: Index for Matrix33"]}
{"id": "C07", "title": "cast_slice regroups a flat buffer without loss", "statement": "RGBu8::cast_slice / RGBf::cast_slice panic exactly when the length is not a multiple of 3; otherwise they return len/3 pixels whose channels, in order, are the buffer.", "quantifier": "every buffer of every length", "why_tests_cant": "It ranges over slices of every length and content; tests use one fixed chart.", "anchors": ["src/rgb.rs: RGBu8::cast_slice", "src/rgb.rs: RGBf::cast_slice"]}
{"id": "C08", "title": "Summing an iterator of colours is the channelwise sum", "statement": "sum() of any sequence of RGBf/XYZ colours is, channel by channel, the left-to-right sum starting from zero; in exact arithmetic it does not depend on the order of the sequence and splits over concatenation.", "quantifier": "every finite sequence of colours", "why_tests_cant": "It ranges over slices of every length and content; tests use one fixed chart.", "anchors": ["src/rgb.rs: Sum for RGBf64", "src/xyz.rs: Sum for XYZf32"]}
{"id": "C09", "title": "Colour operators obey the vector-space laws", "statement": "+,-,unary -,* and / on RGBf and XYZ act channel by channel; c+d-d=c, k*(c+d)=k*c+k*d, (c/d)*d=c for nonzero d in exact arithmetic; scalar-on-the-left f32*c and f32+c give bit-for-bit the same result as c*f32 and c+f32, and c+d=d+c, c*d=d*c bit for bit.", "quantifier": "all colours and scalars; the bitwise parts over all floating-point values", "why_tests_cant": "There are 2^32 / 2^64 bit patterns per channel, including NaN, infinities, subnormals and values next to every rounding boundary; a test samples a handful.", "anchors": ["src/rgb.rs: Add for RGBf", "src/rgb.rs: rgbf_impl_rhs_mul", "src/xyz.rs: Add for XYZ"]}
{"id": "C10", "title": "Matrix transpose is an involution that reverses products", "statement": "m.transposed().transposed() == m, entry (i,j) of m.transposed() is entry (j,i) of m, and (a*b) transposed is b transposed * a transposed.", "quantifier": "all 3x3 matrices", "why_tests_cant": "The claim ranges over a continuum of inputs and a conditional branch; tests hit isolated points and accept an epsilon that hides branch errors.", "anchors": ["src/math.rs: Matrix33::transposed", "src/math.rs: Mul for Matrix33"]}
{"id": "C11", "title": "determinant is the 3x3 determinant and is multiplicative", "statement": "determinant() is the Leibniz sum of the entries; determinant(a*b)=determinant(a)*determinant(b), the identity has determinant 1 and transposing preserves it (exact arithmetic).", "quantifier": "all 3x3 matrices", "why_tests_cant": "The claim ranges over a continuum of inputs and a conditional branch; tests hit isolated points and accept an epsilon that hides branch errors.", "anchors": ["src/math.rs: Matrix33::determinant"]}
{"id": "C12", "title": "Multiplying matrices composes their action on colours", "statement": "(a*b)*c = a*(b*c) for every RGBf and XYZ colour c, matrix multiplication is associative, make_identity() is neutral on both sides, and applying a matrix is linear in the colour (exact arithmetic).", "quantifier": "all matrices and colours", "why_tests_cant": "The claim ranges over a continuum of inputs and a conditional branch; tests hit isolated points and accept an epsilon that hides branch errors.", "anchors": ["src/math.rs: Mul for Matrix33", "src/math.rs: Mul<XYZ<T>> for Matrix33", "src/math.rs: Mul<RGBf<T>> for Matrix33"]}
{"id": "C13", "title": "inverse() returns only true inverses", "statement": "Whenever m.inverse() returns Some(n), n*m and m*n are the identity (exact arithmetic).", "quantifier": "all 3x3 matrices, both f32 and f64 thresholds", "why_tests_cant": "The claim ranges over a continuum of inputs and a conditional branch; tests hit isolated points and accept an epsilon that hides branch errors.", "anchors": ["src/math.rs: Matrix33::inverse"]}
{"id": "C14", "title": "inverse() finds the inverse of every well-conditioned matrix", "statement": "m.inverse() is Some for every m with |determinant| >= 1 (or whose adjugate entries stay below |det|/MIN_POSITIVE), and returns None for every singular matrix.", "quantifier": "all 3x3 matrices", "why_tests_cant": "The claim ranges over a continuum of inputs and a conditional branch; tests hit isolated points and accept an epsilon that hides branch errors.", "anchors": ["src/math.rs: Matrix33::inverse"]}
{"id": "C15", "title": "gj_inverse() returns only true inverses", "statement": "Whenever gj_inverse() completes with finite entries and returns Some(n), n is the two-sided inverse of m (exact arithmetic).", "quantifier": "all 3x3 matrices", "why_tests_cant": "The claim ranges over a continuum of inputs and a conditional branch; tests hit isolated points and accept an epsilon that hides branch errors.", "anchors": ["src/math.rs: Matrix33::gj_inverse"]}
{"id": "C16", "title": "gj_inverse() inverts every invertible matrix", "statement": "gj_inverse() returns Some(inverse) with finite entries for every matrix with nonzero determinant.", "quantifier": "all 3x3 matrices", "why_tests_cant": "The claim ranges over a continuum of inputs and a conditional branch; tests hit isolated points and accept an epsilon that hides branch errors.", "anchors": ["src/math.rs: Matrix33::gj_inverse"]}
{"id": "C17", "title": "xyY and XYZ convert back and forth without loss", "statement": "XYZ::from(xyY) followed by XYY::from(XYZ) returns the same chromaticity and luminance whenever y and Y are nonzero, and XYZ -> xyY -> XYZ returns the same XYZ whenever Y and X+Y+Z are nonzero; for black the xyY is not finite (exact arithmetic).", "quantifier": "all xyY / XYZ values", "why_tests_cant": "The claim ranges over a continuum of inputs and a conditional branch; tests hit isolated points and accept an epsilon that hides branch errors.", "anchors": ["src/chromaticity.rs: XYY::from_xyz", "src/xyz.rs: XYZ::from_chromaticity"]}
{"id": "C18", "title": "normalized() and normalized_y() rescale luminance only", "statement": "For Y != 0, normalized() has Y=1, normalized_y() has Y=100, and both keep the x,y chromaticity.", "quantifier": "all XYZ colours with Y != 0", "why_tests_cant": "The claim ranges over a continuum of inputs and a conditional branch; tests hit isolated points and accept an epsilon that hides branch errors.", "anchors": ["src/xyz.rs: XYZ::normalized", "src/xyz.rs: XYZ::normalized_y"]}
{"id": "C19", "title": "Adapting a white point to itself does nothing", "statement": "bradford(w,w), von_kries(w,w) and cat02(w,w) are exactly the identity matrix, bit for bit, for every white point without NaN channels.", "quantifier": "all white points, including zero and infinite ones", "why_tests_cant": "There are 2^32 / 2^64 bit patterns per channel, including NaN, infinities, subnormals and values next to every rounding boundary; a test samples a handful.", "anchors": ["src/chromatic_adaptation.rs: bradford", "src/chromatic_adaptation.rs: von_kries", "src/chromatic_adaptation.rs: cat02"]}
{"id": "C20", "title": "Bradford and CAT02 send the source white exactly to the destination white", "statement": "bradford(s,d)*s = d and cat02(s,d)*s = d for all white points whose cone responses are nonzero (exact arithmetic), and neither panics.", "quantifier": "all pairs of white points", "why_tests_cant": "The claim ranges over a continuum of inputs and a conditional branch; tests hit isolated points and accept an epsilon that hides branch errors.", "anchors": ["src/chromatic_adaptation.rs: bradford", "src/chromatic_adaptation.rs: cat02"]}
{"id": "C21", "title": "Chromatic adaptations compose and invert", "statement": "cat02(b,c)*cat02(a,b)=cat02(a,c) and cat02(b,a)*cat02(a,b)=identity, and the same for bradford (exact arithmetic).", "quantifier": "all triples of white points with nonzero cone responses", "why_tests_cant": "The claim ranges over a continuum of inputs and a conditional branch; tests hit isolated points and accept an epsilon that hides branch errors.", "anchors": ["src/chromatic_adaptation.rs: cat02", "src/chromatic_adaptation.rs: bradford"]}
{"id": "C22", "title": "von_kries sends the source white to the destination white", "statement": "von_kries(s,d)*s = d for all white points with nonzero cone responses.", "quantifier": "all pairs of white points", "why_tests_cant": "The claim ranges over a continuum of inputs and a conditional branch; tests hit isolated points and accept an epsilon that hides branch errors.", "anchors": ["src/chromatic_adaptation.rs: von_kries"]}
{"id": "C23", "title": "A colour space built from primaries maps white and primaries correctly", "statement": "ColorSpaceRGB::new(r,g,b,w,..): xf_xyz_to_rgb sends the XYZ of w (Y=1) to (1,1,1) and sends each primary's XYZ to a multiple of the matching unit vector; xf_rgb_to_xyz is its exact two-sided inverse, so (1,1,1) maps back to w (exact arithmetic).", "quantifier": "all non-degenerate choices of primaries and white point", "why_tests_cant": "The claim ranges over a continuum of inputs and a conditional branch; tests hit isolated points and accept an epsilon that hides branch errors.", "anchors": ["src/color_space_rgb.rs: ColorSpaceRGB::new", "src/color_space_rgb.rs: build_xyz_to_rgb_matrix"]}
{"id": "C24", "title": "The built-in colour spaces have matching matrices", "statement": "For every built-in space the two matrices are mutual inverses and white maps to (1,1,1): exactly for spaces derived from primaries, within the published rounding for spaces with specified matrices.", "quantifier": "all built-in spaces, all colours", "why_tests_cant": "Tests compare 24 swatches with stored values produced by the same matrices.", "anchors": ["src/color_space_rgb.rs: model_f64", "src/color_space_rgb.rs: ColorSpaceRGB::new_with_specified_matrices"]}
{"id": "C25", "title": "RGB-to-RGB matrices form a groupoid", "statement": "rgb_to_rgb_matrix(A,A) is the identity, rgb_to_rgb_matrix(B,C)*rgb_to_rgb_matrix(A,B)=rgb_to_rgb_matrix(A,C), and white (1,1,1) is mapped to (1,1,1), for spaces built from primaries (exact arithmetic).", "quantifier": "all colour spaces built by ColorSpaceRGB::new", "why_tests_cant": "The claim ranges over a continuum of inputs and a conditional branch; tests hit isolated points and accept an epsilon that hides branch errors.", "anchors": ["src/transform.rs: rgb_to_rgb_matrix"]}
{"id": "C26", "title": "RGB to XYZ and back is the identity", "statement": "xyz_to_rgb with xyz_to_rgb_matrix(w,S) undoes rgb_to_xyz with rgb_to_xyz_matrix(w,S), for every reference white w and space S built from primaries; XYZ is scaled so that white has Y=100 (exact arithmetic).", "quantifier": "all colours, white points and spaces", "why_tests_cant": "The claim ranges over a continuum of inputs and a conditional branch; tests hit isolated points and accept an epsilon that hides branch errors.", "anchors": ["src/transform.rs: xyz_to_rgb", "src/transform.rs: rgb_to_xyz", "src/transform.rs: xyz_to_rgb_matrix", "src/transform.rs: rgb_to_xyz_matrix"]}
{"id": "C27", "title": "The slice conversion equals the single-colour conversion", "statement": "xyz_slice_to_rgb(m, xs) has exactly xs.len() results and its i-th result is xyz_to_rgb(m, xs[i]) bit for bit.", "quantifier": "every slice and matrix", "why_tests_cant": "It ranges over slices of every length and content; tests use one fixed chart.", "anchors": ["src/transform.rs: xyz_slice_to_rgb", "src/transform.rs: xyz_to_rgb"]}
{"id": "C28", "title": "rgb_to_rgb converts a prefix and touches nothing else", "statement": "rgb_to_rgb(A,B,from,to) returns min(from.len(),to.len()) = n, sets to[i] for i<n to the encoded, matrix-converted, decoded from[i], and leaves to[n..] unchanged.", "quantifier": "every pair of slices, spaces and destination pixel type", "why_tests_cant": "It ranges over slices of every length and content; tests use one fixed chart.", "anchors": ["src/transform.rs: rgb_to_rgb"]}
{"id": "C29", "title": "The AVX plane conversion converts every pixel", "statement": "xyz_slice_to_rgb_avx_planes(m, xs, ys, zs) returns, for every index i, the same RGB as the scalar conversion of (xs[i],ys[i],zs[i]).", "quantifier": "every plane length and SIMD width", "why_tests_cant": "The only test uses 24 pixels with width 8, a multiple of the width.", "anchors": ["src/transform.rs: xyz_slice_to_rgb_avx_planes"]}
{"id": "C30", "title": "sRGB transfer functions undo each other", "statement": "decode::srgb(encode::srgb(x)) = x for every real x and encode::srgb(decode::srgb(f)) = f for every real f (exact arithmetic).", "quantifier": "all reals, both branches", "why_tests_cant": "The claim ranges over a continuum of inputs and a conditional branch; tests hit isolated points and accept an epsilon that hides branch errors.", "anchors": ["src/color_space_rgb.rs: encode::srgb_t", "src/color_space_rgb.rs: decode::srgb_t"]}
{"id": "C31", "title": "BT.709 transfer functions undo each other", "statement": "decode::bt709(encode::bt709(x)) = x for every x, and encode::bt709(decode::bt709(f)) = f for every f (exact arithmetic).", "quantifier": "all reals, both branches", "why_tests_cant": "The claim ranges over a continuum of inputs and a conditional branch; tests hit isolated points and accept an epsilon that hides branch errors.", "anchors": ["src/color_space_rgb.rs: encode::bt709_t", "src/color_space_rgb.rs: decode::bt709_t"]}
{"id": "C32", "title": "BT.2020 transfer functions undo each other", "statement": "decode::bt2020(encode::bt2020(x)) = x for every x, and encode::bt2020(decode::bt2020(f)) = f for every f (exact arithmetic).", "quantifier": "all reals, both branches", "why_tests_cant": "The claim ranges over a continuum of inputs and a conditional branch; tests hit isolated points and accept an epsilon that hides branch errors.", "anchors": ["src/color_space_rgb.rs: encode::bt2020_t", "src/color_space_rgb.rs: decode::bt2020_t"]}
{"id": "C33", "title": "ALEXA LogC transfer functions undo each other", "statement": "decode::alexa_logc_v3(encode::alexa_logc_v3(x)) = x for every x and encode(decode(t)) = t for every t (exact arithmetic).", "quantifier": "all reals, both branches", "why_tests_cant": "The claim ranges over a continuum of inputs and a conditional branch; tests hit isolated points and accept an epsilon that hides branch errors.", "anchors": ["src/color_space_rgb.rs: encode::alexa_logc_v3_t", "src/color_space_rgb.rs: decode::alexa_logc_v3_t"]}
{"id": "C34", "title": "Power-law and linear spaces encode and decode losslessly", "statement": "For DCI_P3, DCI_P3_D65 and ADOBE_RGB_1998, decode(encode(c)) = c and encode(decode(c)) = c for all nonnegative colours, and a negative channel yields a non-finite result; for ACES and ACES_CG encode and decode return their argument unchanged, bit for bit.", "quantifier": "all colours", "why_tests_cant": "The claim ranges over a continuum of inputs and a conditional branch; tests hit isolated points and accept an epsilon that hides branch errors.", "anchors": ["src/color_space_rgb.rs: model_f64::DCI_P3", "src/color_space_rgb.rs: encode::linear"]}
{"id": "C35", "title": "Transfer functions are monotone and keep [0,1]", "statement": "Each built-in encode and decode is nondecreasing on the reals, sends 0 to 0 and 1 to 1 (sRGB, BT.709, BT.2020, power laws) and maps [0,1] into [0,1].", "quantifier": "all pairs of reals", "why_tests_cant": "The claim ranges over a continuum of inputs and a conditional branch; tests hit isolated points and accept an epsilon that hides branch errors.", "anchors": ["src/color_space_rgb.rs: encode", "src/color_space_rgb.rs: decode"]}
{"id": "C36", "title": "8-bit sRGB codes survive linearisation", "statement": "For every 8-bit code k, quantising encode::srgb(decode::srgb(k/255)) gives k again; the same for BT.709 and BT.2020 where the decoded value is representable (exact arithmetic).", "quantifier": "all codes", "why_tests_cant": "Depends on the piecewise curve near its breakpoint.", "anchors": ["src/color_space_rgb.rs: encode::srgb_t", "src/rgb.rs: From<RGBf64> for RGBu8"]}
{"id": "C37", "title": "Lab and XYZ convert back and forth without loss", "statement": "xyz_to_lab(lab_to_xyz(c,w),w) = c for every Lab colour and lab_to_xyz(xyz_to_lab(v,w),w) = v for every XYZ colour, for every white w with nonzero channels (exact arithmetic).", "quantifier": "all colours (negative values included), both branches per channel", "why_tests_cant": "The claim ranges over a continuum of inputs and a conditional branch; tests hit isolated points and accept an epsilon that hides branch errors.", "anchors": ["src/lab.rs: xyz_to_lab", "src/lab.rs: lab_to_xyz"]}
{"id": "C38", "title": "Lab anchors: white, black, and lightness depends on Y alone", "statement": "xyz_to_lab(w,w)=(100,0,0), xyz_to_lab(black,w)=(0,0,0); L is strictly increasing in Y and independent of X and Z; scaling colour and white together changes nothing.", "quantifier": "all XYZ colours and whites", "why_tests_cant": "The claim ranges over a continuum of inputs and a conditional branch; tests hit isolated points and accept an epsilon that hides branch errors.", "anchors": ["src/lab.rs: xyz_to_lab"]}
{"id": "C39", "title": "delta_E_1976 is a metric", "statement": "delta_E_1976 is nonnegative, zero exactly for equal colours, symmetric and satisfies the triangle inequality (exact arithmetic).", "quantifier": "all triples of Lab colours", "why_tests_cant": "The claim ranges over a continuum of inputs and a conditional branch; tests hit isolated points and accept an epsilon that hides branch errors.", "anchors": ["src/lab.rs: delta_E_1976"]}
{"id": "C40", "title": "delta_E_2000 does not depend on argument order", "statement": "delta_E(c1,c2) = delta_E(c2,c1) for all Lab colours (exact arithmetic).", "quantifier": "all pairs of Lab colours, all hue-wrap branches", "why_tests_cant": "The claim ranges over a continuum of inputs and a conditional branch; tests hit isolated points and accept an epsilon that hides branch errors.", "anchors": ["src/lab.rs: delta_E_2000"]}
{"id": "C41", "title": "delta_E_2000 is defined, nonnegative and zero only for equal colours", "statement": "delta_E(c1,c2) never takes the square root of a negative number or divides by zero, is >= 0, and is 0 exactly when c1 = c2 (exact arithmetic).", "quantifier": "all pairs of Lab colours", "why_tests_cant": "The claim ranges over a continuum of inputs and a conditional branch; tests hit isolated points and accept an epsilon that hides branch errors.", "anchors": ["src/lab.rs: delta_E_2000"]}
{"id": "C42", "title": "cct accepts exactly 4000 K to 25000 K and returns a valid chromaticity", "statement": "illuminant::xy::cct(t) is Err exactly when t is outside [4000,25000]; otherwise it returns Y=1 and x,y with 0<x, 0<y, x+y<1 on the CIE daylight locus.", "quantifier": "all temperatures of either float width", "why_tests_cant": "The claim ranges over a continuum of inputs and a conditional branch; tests hit isolated points and accept an epsilon that hides branch errors.", "anchors": ["src/illuminant.rs: xy::cct"]}
{"id": "C43", "title": "Daylight chromaticity moves monotonically with temperature", "statement": "Over the accepted range, a higher colour temperature gives a strictly smaller x and a strictly smaller y on each of the two branches.", "quantifier": "all pairs of accepted temperatures", "why_tests_cant": "The claim ranges over a continuum of inputs and a conditional branch; tests hit isolated points and accept an epsilon that hides branch errors.", "anchors": ["src/illuminant.rs: xy::cct"]}
{"id": "C44", "title": "The fast SPD conversion is the weighted sum of its samples", "statement": "SPD::to_xyz on the scalar path equals (sum v_i*W_X[i], sum v_i*W_Y[i], sum v_i*W_Z[i]) in exact arithmetic, hence is additive and homogeneous in the samples.", "quantifier": "all 40-sample spectra", "why_tests_cant": "The claim ranges over a continuum of inputs and a conditional branch; tests hit isolated points and accept an epsilon that hides branch errors.", "anchors": ["src/spd.rs: spd_to_xyz_scalar"]}
{"id": "C45", "title": "AVX and scalar fast SPD conversions agree", "statement": "spd_to_xyz_avx and spd_to_xyz_scalar return the same XYZ for every SPD (exact arithmetic).", "quantifier": "all 40-sample spectra", "why_tests_cant": "The AVX path is compiled only with the avx feature and tested on 24 swatches.", "anchors": ["src/spd.rs: spd_to_xyz_avx", "src/spd.rs: hadd_avx"]}
{"id": "C46", "title": "Nonnegative spectra give nonnegative tristimulus values", "statement": "SPD::to_xyz of a spectrum with all samples >= 0 has X, Y, Z >= 0.", "quantifier": "all nonnegative 40-sample spectra", "why_tests_cant": "The claim ranges over a continuum of inputs and a conditional branch; tests hit isolated points and accept an epsilon that hides branch errors.", "anchors": ["src/spd.rs: spd_to_xyz_scalar", "src/spd.rs: W_Z"]}
{"id": "C47", "title": "SPD product and equality are samplewise", "statement": "(&a * &b).values[i] = a.values[i]*b.values[i] for all 40 samples, constant(v) has every sample v, and a == b exactly when all 40 samples compare equal.", "quantifier": "all spectra, all floating-point values", "why_tests_cant": "There are 2^32 / 2^64 bit patterns per channel, including NaN, infinities, subnormals and values next to every rounding boundary; a test samples a handful.", "anchors": ["src/spd.rs: Mul for &SPD", "src/spd.rs: SPD::constant", "src/spd.rs: PartialEq for SPD"]}
{"id": "C48", "title": "VSPD::new reports the true shape of its samples", "statement": "VSPD::new panics exactly when given fewer than 2 samples; otherwise start()/end() are the first/last wavelength, samples() are unchanged, and interval() is Uniform(d) only if every gap between neighbouring samples is (approximately) d, Varying otherwise.", "quantifier": "all sample vectors", "why_tests_cant": "It ranges over slices of every length and content; tests use one fixed chart.", "anchors": ["src/vspd.rs: VSPD::new", "src/vspd.rs: calculate_interval", "src/vspd.rs: calculate_shape"]}
{"id": "C49", "title": "A uniform SpdShape enumerates an evenly spaced grid inside its bounds", "statement": "For interval > 0 and end >= start, SpdShape::iter yields floor((end-start)/interval)+1 wavelengths start, start+interval, ..., all in [start,end] and the next one would exceed end (exact arithmetic); it panics when end < start by an interval or more.", "quantifier": "all shapes", "why_tests_cant": "The claim ranges over a continuum of inputs and a conditional branch; tests hit isolated points and accept an epsilon that hides branch errors.", "anchors": ["src/vspd.rs: SpdShape::iter", "src/vspd.rs: SpdShapeIterator::next"]}
{"id": "C50", "title": "constant and from_values build exactly the requested spectrum", "statement": "VSPD::constant(shape,v) has one sample of value v per grid wavelength; VSPD::from_values(shape,vals) panics unless vals has exactly as many entries (>=2) as the grid and otherwise pairs grid and values in order; both report the given shape.", "quantifier": "all shapes and value slices", "why_tests_cant": "It ranges over slices of every length and content; tests use one fixed chart.", "anchors": ["src/vspd.rs: VSPD::constant", "src/vspd.rs: VSPD::from_values"]}
{"id": "C51", "title": "Sprague interpolation passes through every sample", "statement": "For a uniformly spaced SPD, InterpolatorSprague::evaluate(nm_i) = v_i for every sample i (exact arithmetic).", "quantifier": "all uniform SPDs with at least 6 samples, all sample indices", "why_tests_cant": "The claim ranges over a continuum of inputs and a conditional branch; tests hit isolated points and accept an epsilon that hides branch errors.", "anchors": ["src/interpolation.rs: InterpolatorSprague::evaluate", "src/interpolation.rs: coeff_a"]}
{"id": "C52", "title": "Sprague evaluation never reads out of bounds and fails only outside its domain", "statement": "For an increasing uniform SPD of n >= 2 samples, evaluate(x) returns a value for every x in [first-2h, last+2h) and, when overflow checks are on, panics for every other x; with them off, an x below the domain silently evaluates the last segment's polynomial.", "quantifier": "all SPDs and all x", "why_tests_cant": "The claim ranges over a continuum of inputs and a conditional branch; tests hit isolated points and accept an epsilon that hides branch errors.", "anchors": ["src/interpolation.rs: InterpolatorSprague::evaluate", "src/interpolation.rs: InterpolatorSprague::new"]}
{"id": "C53", "title": "Sprague interpolation is twice continuously differentiable", "statement": "Across every interior sample the value, slope and curvature of the left and right interpolating polynomials agree (exact arithmetic).", "quantifier": "all uniform SPDs, all interior knots", "why_tests_cant": "The claim ranges over a continuum of inputs and a conditional branch; tests hit isolated points and accept an epsilon that hides branch errors.", "anchors": ["src/interpolation.rs: coeff_a"]}
{"id": "C54", "title": "Sprague interpolation reproduces low-degree spectra", "statement": "If at least six samples lie on a constant or linear function the interpolant equals that function over the whole range, including the extrapolated boundary points; away from the boundary it reproduces every polynomial of degree <= 4 (exact arithmetic).", "quantifier": "all such spectra and all x in range", "why_tests_cant": "The claim ranges over a continuum of inputs and a conditional branch; tests hit isolated points and accept an epsilon that hides branch errors.", "anchors": ["src/interpolation.rs: InterpolatorSprague::new", "src/interpolation.rs: coeff_a", "src/interpolation.rs: coeff_c0"]}
{"id": "C55", "title": "Linear interpolation passes through samples and stays within neighbours", "statement": "For increasing wavelengths, InterpolatorLinear::evaluate returns v_i at nm_i, lies between the two neighbouring values in between, equals the end values outside, and never panics for a real x; NaN panics.", "quantifier": "all increasing SPDs and all x", "why_tests_cant": "The claim ranges over a continuum of inputs and a conditional branch; tests hit isolated points and accept an epsilon that hides branch errors.", "anchors": ["src/interpolation.rs: InterpolatorLinear::evaluate"]}
{"id": "C56", "title": "interpolate resamples inside both ranges", "statement": "spd.interpolate(shape) has wavelengths start, start+interval, ... of the narrower of the two ranges, each value is the Sprague interpolant there, and shape() reports that narrower range.", "quantifier": "all uniform SPDs and uniform shapes with overlapping ranges", "why_tests_cant": "It ranges over slices of every length and content; tests use one fixed chart.", "anchors": ["src/vspd.rs: VSPD::interpolate"]}
{"id": "C57", "title": "extrapolate keeps every sample and pads with the end values", "statement": "spd.extrapolate(shape) consists of padding with the first value below start(), all original samples in order, and padding with the last value above end(); it terminates whenever the interval is positive.", "quantifier": "all SPDs and shapes", "why_tests_cant": "Termination of a floating-point while loop and the frame condition range over all inputs.", "anchors": ["src/vspd.rs: VSPD::extrapolate", "src/interpolation.rs: ExtrapolatorConstant::evaluate"]}
{"id": "C58", "title": "align returns an SPD on the requested grid", "statement": "spd.align(shape) has exactly the wavelengths of shape.iter().", "quantifier": "all uniform SPDs and uniform shapes", "why_tests_cant": "It ranges over slices of every length and content; tests use one fixed chart.", "anchors": ["src/vspd.rs: VSPD::align", "src/vspd.rs: VSPD::interpolate", "src/vspd.rs: VSPD::extrapolate"]}
{"id": "C59", "title": "shape() describes the samples", "statement": "After any of new, constant, from_values, interpolate, extrapolate, align, trim, start() is the wavelength of the first sample and end() is not exceeded by the last.", "quantifier": "all SPDs and shapes", "why_tests_cant": "It ranges over slices of every length and content; tests use one fixed chart.", "anchors": ["src/vspd.rs: VSPD::extrapolate", "src/vspd.rs: VSPD::trim"]}
{"id": "C60", "title": "trim keeps exactly the samples inside the range", "statement": "For increasing wavelengths spd.trim(shape) keeps, in order, exactly the samples with shape.start <= nm <= shape.end, and panics exactly when there are none.", "quantifier": "all increasing SPDs and shapes", "why_tests_cant": "It ranges over slices of every length and content; tests use one fixed chart.", "anchors": ["src/vspd.rs: VSPD::trim"]}
{"id": "C61", "title": "Lagrange coefficients are a partition of unity that reproduces polynomials", "statement": "lagrange_coefficients_astm_e2022(interval,n): each row has n coefficients summing to 1 that interpolate every polynomial of degree < n exactly at that row's fractional position (exact arithmetic).", "quantifier": "all intervals >= 3 and n = 3, 4", "why_tests_cant": "The claim ranges over a continuum of inputs and a conditional branch; tests hit isolated points and accept an epsilon that hides branch errors.", "anchors": ["src/vspd.rs: lagrange_coefficients", "src/vspd.rs: lagrange_coefficients_astm_e2022"]}
{"id": "C62", "title": "linspace yields the requested evenly spaced points", "statement": "linspace(a,b,n) yields n points, the first is a, the last is b, with equal spacing (exact arithmetic, n >= 2).", "quantifier": "all a, b, n", "why_tests_cant": "The claim ranges over a continuum of inputs and a conditional branch; tests hit isolated points and accept an epsilon that hides branch errors.", "anchors": ["src/vspd.rs: linspace", "src/vspd.rs: FloatRange"]}
{"id": "C63", "title": "ASTM weighting factors conserve total weight and are normalised", "statement": "The E2022 weighting table distributes every 1 nm product s*cmf onto the coarse grid without loss, so that the Y weights sum to exactly 100 and X, Z weights to the white point; trimming it to a measured range (E308) keeps the sums; tables or lights that are not at 1 nm are refused (exact arithmetic).", "quantifier": "all illuminants and CMFs on one 1 nm grid, all coarse intervals of at least 3 nm with at least 3 coarse points, all trim ranges overlapping the table", "why_tests_cant": "It ranges over slices of every length and content; tests use one fixed chart.", "anchors": ["src/vspd.rs: tristimulus_weighting_factors_astme2022", "src/vspd.rs: adjust_tristimulus_weighting_factors_astme308"]}
{"id": "C64", "title": "The perfect diffuser has Y = 100", "statement": "to_xyz of the constant-1 spectrum gives Y = 100 for every illuminant and CMF for which the normalising sum is nonzero, for 1, 5 and 10 nm spectra (exact arithmetic).", "quantifier": "all illuminants and CMFs", "why_tests_cant": "It ranges over slices of every length and content; tests use one fixed chart.", "anchors": ["src/vspd.rs: VSPD::to_xyz", "src/vspd.rs: spd_to_xyz_integration", "src/vspd.rs: spd_to_xyz_tristimulus_weighting_factors_astme308"]}
{"id": "C65", "title": "to_xyz is linear in the spectrum", "statement": "to_xyz(a+b) = to_xyz(a)+to_xyz(b) and to_xyz(k*a) = k*to_xyz(a) for spectra on the same wavelengths (exact arithmetic).", "quantifier": "all pairs of spectra, illuminants, CMFs", "why_tests_cant": "It ranges over slices of every length and content; tests use one fixed chart.", "anchors": ["src/vspd.rs: VSPD::to_xyz", "src/vspd.rs: Mul<f64> for VSPD"]}
{"id": "C66", "title": "to_xyz does not depend on illuminant power", "statement": "Multiplying the illuminant by any nonzero constant leaves to_xyz unchanged (exact arithmetic).", "quantifier": "all spectra, illuminants, CMFs, scale factors", "why_tests_cant": "It ranges over slices of every length and content; tests use one fixed chart.", "anchors": ["src/vspd.rs: VSPD::to_xyz"]}
{"id": "C67", "title": "Spectra that are not 1, 5 or 10 nm are interpolated", "statement": "to_xyz of a uniform SPD whose interval is not 1, 5 or 10 nm interpolates it to 1 nm before integrating, as documented.", "quantifier": "all uniform intervals", "why_tests_cant": "Tests use 5 and 10 nm only.", "anchors": ["src/vspd.rs: VSPD::to_xyz", "src/uplifting.rs: SMITS_WHITE"]}
{"id": "C68", "title": "spd_to_nit is linear and defined for every spectrum", "statement": "photometry::spd_to_nit(spd,cmf) is additive and homogeneous in spd and returns a value for every SPD whose range overlaps the CMF.", "quantifier": "all spectra and CMFs", "why_tests_cant": "It ranges over slices of every length and content; tests use one fixed chart.", "anchors": ["src/photometry.rs: spd_to_nit"]}
{"id": "C69", "title": "Uplifted reflectances are physical", "statement": "uplift_my(rgb) has 81 samples at 380..780 nm step 5, is linear in rgb, lies in [0, 1.00001] for every rgb in [0,1]^3 and is within 1e-5 of 1 everywhere for white.", "quantifier": "all RGB triples", "why_tests_cant": "The claim ranges over a continuum of inputs and a conditional branch; tests hit isolated points and accept an epsilon that hides branch errors.", "anchors": ["src/uplifting.rs: uplift_my", "src/uplifting.rs: my_basis"]}
{"id": "C70", "title": "Scaling an SPD scales values only", "statement": "spd * k and spd / k keep all wavelengths and multiply (divide) every value; for SPDs built by new/collect the shape is unchanged.", "quantifier": "all SPDs and scalars", "why_tests_cant": "It ranges over slices of every length and content; tests use one fixed chart.", "anchors": ["src/vspd.rs: Mul<f64> for VSPD", "src/vspd.rs: Div<f64> for VSPD", "src/vspd.rs: FromIterator<Sample> for VSPD"]}
{"id": "C71", "title": "SPD equality is an equivalence on NaN-free spectra", "statement": "== on VSPD is symmetric and transitive, reflexive when no field is NaN, and equal SPDs have equal samples in order.", "quantifier": "all VSPDs", "why_tests_cant": "There are 2^32 / 2^64 bit patterns per channel, including NaN, infinities, subnormals and values next to every rounding boundary; a test samples a handful.", "anchors": ["src/vspd.rs: PartialEq for VSPD"]}
{"id": "C72", "title": "Floating-point matrix application stays close to the exact product", "statement": "For f32 and f64, each channel of matrix*colour computed with rounding differs from the exact value by at most a fixed multiple of machine epsilon times the sum of absolute products, barring overflow and underflow.", "quantifier": "all finite matrices and colours without overflow/underflow", "why_tests_cant": "There are 2^32 / 2^64 bit patterns per channel, including NaN, infinities, subnormals and values next to every rounding boundary; a test samples a handful.", "anchors": ["src/math.rs: Mul<XYZ<T>> for Matrix33"]}
{"id": "C73", "title": "lerp hits its end points exactly", "statement": "lerp(a,b,0) = a and lerp(a,b,1) = b in f32 arithmetic for all finite a,b, and in exact arithmetic lerp(a,b,t) lies between a and b for t in [0,1].", "quantifier": "all finite f32 values", "why_tests_cant": "There are 2^32 / 2^64 bit patterns per channel, including NaN, infinities, subnormals and values next to every rounding boundary; a test samples a handful.", "anchors": ["src/math.rs: lerp"]}
{"id": "C74", "title": "Narrowing to 32 bits preserves order", "statement": "Converting RGBf64/XYZf64/Matrix f64 to f32 is monotone per channel and exact on values that came from f32.", "quantifier": "all non-NaN f64 values", "why_tests_cant": "There are 2^32 / 2^64 bit patterns per channel, including NaN, infinities, subnormals and values next to every rounding boundary; a test samples a handful.", "anchors": ["src/rgb.rs: From<RGBf64> for RGBf32", "src/xyz.rs: From<XYZf64> for XYZf32", "src/math.rs: From<M3f64> for M3f32"]}
{"id": "C75", "title": "The built-in spectral tables are well formed", "statement": "Every built-in illuminant, CMF, colour-checker and uplifting table is accepted by its constructor without panicking, has strictly increasing wavelengths with the stated constant spacing, and CMFs and illuminants are nonnegative.", "quantifier": "all built-in tables, every entry", "why_tests_cant": "About 5000 literals; no test checks the spacing or signs.", "anchors": ["src/illuminant.rs: spd::D65", "src/cmf.rs: CIE_1931_2_DEGREE", "src/uplifting.rs: SMITS_WHITE"]}
{"id": "C76", "title": "The E2022 table integrates smooth spectra exactly", "statement": "For a spectrum that is a polynomial of degree at most 2 in wavelength, sampled on the coarse grid, the weighting table gives the same X, Y and Z as summing the spectrum over the 1 nm grid (held constant past the last coarse point) (exact arithmetic).", "quantifier": "all quadratic spectra, all illuminants and CMFs, all whole coarse intervals >= 3 nm with at least 3 coarse points", "why_tests_cant": "The claim ranges over a continuum of inputs and a conditional branch; tests hit isolated points and accept an epsilon that hides branch errors.", "anchors": ["src/vspd.rs: tristimulus_weighting_factors_astme2022", "src/vspd.rs: lagrange_coefficients_astm_e2022"]}
{"id": "C77", "title": "Built-in illuminants reproduce their white points", "statement": "A perfect diffuser lit by a built-in illuminant spectrum and seen through the built-in CMF has Y = 100 and the chromaticity listed for that illuminant: within 5e-5 for D50, D55 and D65, within 1.2e-4 for D60, whose listed y is more than 1e-4 away (exact arithmetic on the literals).", "quantifier": "all four illuminants; every constant spectrum of ones at 1, 5 or 10 nm that meets 360..780 nm", "why_tests_cant": "The result depends on about 2000 table entries and on which of three integration paths the diffuser takes; one wrong digit moves the result by less than a test tolerance.", "anchors": ["src/illuminant.rs: spd::D65", "src/illuminant.rs: xy::D65", "src/vspd.rs: to_xyz"]}
{"id": "C78", "title": "Built-in colour spaces have their published primaries", "statement": "Transforming pure red, green and blue of each built-in RGB space to XYZ gives the published primary chromaticities: exactly for spaces derived from primaries, within 1e-4 (sRGB), 1e-10 (ACES), 1e-5 (Adobe RGB) and 1e-6 (Alexa) for spaces given by matrices.", "quantifier": "all ten built-in spaces", "why_tests_cant": "No test compares the primaries of any space with the standards; a wrong digit only tints colours.", "anchors": ["src/color_space_rgb.rs: ITUR_BT2020", "src/color_space_rgb.rs: SRGB", "src/color_space_rgb.rs: new"]}
{"id": "C79", "title": "Wide gamuts contain narrow ones", "statement": "Converting an in-gamut colour (all channels in [0,1]) from BT.709 to BT.2020, DCI-P3 D65, DCI-P3 or ACEScg, or from BT.2020 or DCI-P3 to ACEScg, gives an in-gamut colour; the opposite conversions leave the gamut for some colour.", "quantifier": "all colours of the unit cube; exact arithmetic", "why_tests_cant": "A test can only sample the cube.", "anchors": ["src/transform.rs: rgb_to_rgb", "src/color_space_rgb.rs: ACES_CG"]}
{"id": "C80", "title": "The fast 32-bit spectrum conversion is accurate", "statement": "The compensated f32 sum of a fast SPD conversion differs from the exact sum of products by at most 7 units of 2^-24 of the sum of absolute products plus 2n half-subnormals, independently of the length (up to 2^20); the AVX path by at most 8 units and 80 half-subnormals.", "quantifier": "all f32 samples and weights with a finite result", "why_tests_cant": "There are 2^32 / 2^64 bit patterns per channel, including NaN, infinities, subnormals and values next to every rounding boundary; a test samples a handful.", "anchors": ["src/spd.rs: spd_to_xyz_scalar", "src/spd.rs: spd_to_xyz_avx"]}
{"id": "C81", "title": "Hero wavelengths stay in range and are stratified", "statement": "For every sample x in [0,1) the four hero wavelengths lie in [360,780), the first is 360+420x, the others follow at 105, 210 and 315 nm modulo 420, and each quarter of the range holds one of them; with f64 rounding all four are in [360,780) for every x in [0,1].", "quantifier": "all x", "why_tests_cant": "Random samples never hit the wrap-around boundary exactly.", "anchors": ["examples/hero_wavelength_sampling.rs: main"]}
{"id": "C82", "title": "Colour equality and is_zero are channelwise IEEE comparisons", "statement": "== on RGB and XYZ colours holds exactly when every channel pair is equal and not NaN; it is symmetric and transitive, and reflexive exactly on NaN-free colours. is_zero holds exactly when all channels are +0 or -0.", "quantifier": "all f32 and f64 colours", "why_tests_cant": "There are 2^32 / 2^64 bit patterns per channel, including NaN, infinities, subnormals and values next to every rounding boundary; a test samples a handful.", "anchors": ["src/rgb.rs: RGBf", "src/rgb.rs: is_zero", "src/xyz.rs: is_zero"]}
{"id": "C83", "title": "delta_E_2000 is the published CIEDE2000 formula", "statement": "delta_E_2000 equals the CIE 142-2001 formula with unit parametric factors, where the mean hue is the direction that bisects the two hue vectors and the hue term is the signed square root of 2(C1 C2 - a1 a2 - b1 b2); for a grey colour the hue terms vanish, and for exactly opposite hues the mean lies a quarter turn ahead of the hue in the upper half plane (exact arithmetic).", "quantifier": "all pairs of real Lab colours", "why_tests_cant": "The published test data are 34 pairs; the branches of the hue arithmetic (wrap-around, greys, opposite hues) need real quantification.", "anchors": ["src/lab.rs: delta_E_2000"]}
{"id": "C84", "title": "delta_E_2000 is bounded by delta_E_1976 but is not a metric", "statement": "delta_E_2000(c,d) <= sqrt(4.5) * delta_E_1976(c,d) for all colours, and the triangle inequality fails for it (black, mid grey, white) (exact arithmetic).", "quantifier": "all pairs of real Lab colours", "why_tests_cant": "The claim ranges over a continuum of inputs and a conditional branch; tests hit isolated points and accept an epsilon that hides branch errors.", "anchors": ["src/lab.rs: delta_E_2000", "src/lab.rs: delta_E_1976"]}
{"id": "C85", "title": "Transfer functions undo each other up to a small error everywhere", "statement": "For every real x, decode(encode(x)) and encode(decode(x)) differ from x by at most 1e-8 for sRGB, 3.2e-4 for BT.709 and BT.2020 and 1.3e-4 for ALEXA LogC; so every built-in space loses at most 3.2e-4 per channel on nonnegative colours in either direction, and for BT.709 and BT.2020 more than 2.3e-4 is lost for some value (exact arithmetic).", "quantifier": "all real channel values, all ten built-in spaces", "why_tests_cant": "The windows where the pieces do not meet are as narrow as 3e-9.", "anchors": ["src/color_space_rgb.rs: encode::bt709_t", "src/color_space_rgb.rs: decode::alexa_logc_v3_t"]}
{"id": "C86", "title": "Integer pixels survive the trip through XYZ", "statement": "In f32 and in f64, for every built-in space and each of the six listed white points, converting a linear pixel to XYZ and back never panics and returns every pixel unchanged: at every code depth up to 65535, or up to 4095 for sRGB and Adobe RGB, whose matrices are printed with few decimals. Those two limits are needed: at 16 bits some sRGB and Adobe RGB pixels come back changed.", "quantifier": "all 65536^3 (4096^3) pixels, all depths below, ten spaces, six whites, both float types", "why_tests_cant": "There are 2^48 pixels per space and white; the project tests none of them.", "anchors": ["src/transform.rs: rgb_to_xyz", "src/transform.rs: xyz_to_rgb", "src/color_space_rgb.rs: ColorSpaceRGB"]}
{"id": "C87", "title": "Integer pixels survive decoding and encoding", "statement": "In f32 and in f64, with any powf that is accurate to two units in the last place and maps zero to zero, decoding a pixel to linear light and encoding it again returns it unchanged: for sRGB, DCI-P3, Adobe RGB and the two ACES spaces at every code depth up to 65535, for BT.709 and BT.2020 up to 1023. The last limit is real: at 12 bits both broadcast curves turn grey 332 into 331, because their two pieces do not meet.", "quantifier": "all pixels of all depths up to the limit, nine spaces, both float types, every powf of the stated accuracy", "why_tests_cant": "The result depends on the platform libm; a test only exercises one.", "anchors": ["src/color_space_rgb.rs: ColorSpaceRGB::encode", "src/color_space_rgb.rs: ColorSpaceRGB::decode", "src/rgb.rs: From<RGBf> for RGBu16"]}
{"id": "C88", "title": "Luminance weights of the built-in spaces are the published ones, and in-gamut colours are physical", "statement": "With its own matrix every built-in space gives Y = 100(aR+bG+cB) for every colour, with a, b, c within 5e-5 of the published weights of that space and summing to 1 (0.99999 for Adobe RGB). In the seven spaces sRGB (both), BT.709, BT.2020, DCI-P3 (both) and Adobe RGB every colour of the unit cube has X, Y and Z between 0 and those of white, and only black has Y = 0; ACES, ACEScg and ALEXA Wide Gamut have imaginary primaries and in-cube colours with a negative coordinate (exact arithmetic).", "quantifier": "all real colours, all ten built-in spaces", "why_tests_cant": "The claim ranges over a continuum of inputs and a conditional branch; tests hit isolated points and accept an epsilon that hides branch errors.", "anchors": ["src/color_space_rgb.rs: ColorSpaceRGB", "src/transform.rs: rgb_to_xyz"]}
{"id": "C89", "title": "Lab of an object colour lies in a box, which is tight", "statement": "A colour with X, Y, Z between 0 and those of the white has L in [0,100], |a| <= 12500/29 and |b| <= 5000/29, and each face is attained for every white. So every in-cube colour of a physical space, measured against the space white, lies in that box, and only black has L = 0 (exact arithmetic).", "quantifier": "all real colours and whites", "why_tests_cant": "The claim ranges over a continuum of inputs and a conditional branch; tests hit isolated points and accept an epsilon that hides branch errors.", "anchors": ["src/lab.rs: xyz_to_lab", "src/transform.rs: rgb_to_xyz"]}
{"id": "C90", "title": "Converting an image to the space it is already in changes nothing, up to a depth", "statement": "In f32 and in f64, with any powf accurate to two units in the last place, zero at zero and NaN at negative bases, rgb_to_rgb(s, s) does not panic and returns every image unchanged: sRGB and the two DCI-P3 spaces up to 8 bits, BT.709 and BT.2020 up to code 511, sRGB with derived matrices up to 14 bits, ACES and ACEScg up to 16 bits. It is not so for Adobe RGB, whose 8-bit cyan comes back with red 1 in either format, nor for DCI-P3 in f32 at 10 bits, where red goes from 0 to 2.", "quantifier": "all images of any length with any codes up to the limit, eight spaces, both float types, every powf of the stated accuracy", "why_tests_cant": "The identity is lost in one channel of particular colours, through the steep start of the curves; the result also depends on the platform libm.", "anchors": ["src/transform.rs: rgb_to_rgb", "src/transform.rs: rgb_to_rgb_matrix", "src/color_space_rgb.rs: ColorSpaceRGB"]}
{"id": "C91", "title": "Lab conversions in floating point are accurate and undo each other to a few units in the last place", "statement": "For X, Y, Z within -15% and 115% of a white whose coordinates are between 50 and 110, and any platform whose powf and powi(3) are accurate to two units in the last place, the computed L, a, b are finite and within 7e-5, 6e-4 and 2.4e-4 (f32) or 1.3e-13, 1.1e-12 and 4.4e-13 (f64) of the CIE formulas on the same coordinates, and converting back gives X, Y, Z within 4.3e-6 (f32) or 8e-15 (f64) of the white. The trip is not exact to the bit: a dark colour comes back changed.", "quantifier": "all float colours and whites in the stated range, both float types, every powf/powi of the stated accuracy", "why_tests_cant": "There are 2^32 / 2^64 bit patterns per channel, including NaN, infinities, subnormals and values next to every rounding boundary; a test samples a handful.", "anchors": ["src/lab.rs: xyz_to_lab", "src/lab.rs: lab_to_xyz"]}
{"id": "C92", "title": "Integer pixels survive the trip through Lab, up to a depth", "statement": "In f32 and in f64, for each of the six listed white points, taking a pixel to XYZ, to Lab and back to the space never panics and returns every pixel unchanged. Linear pixels: all ten spaces; in f32 up to 12 bits for sRGB, 13 for Adobe RGB, 14 or 15 for the others; in f64 up to 12 bits for sRGB, 15 for Adobe RGB, 16 for the others. Stored pixels, decoded first and encoded afterwards: 8 bits for sRGB, 10 (f32) or 16 (f64) bits for sRGB with derived matrices, codes up to 511 for BT.709 and BT.2020, 15 (f32) or 16 (f64) bits for ACES and ACEScg, and 8 bits for the two DCI-P3 spaces in f64.", "quantifier": "all pixels of all depths up to the limits, six whites, both float types, every powf/powi of the stated accuracy", "why_tests_cant": "There are up to 2^48 pixels per space and white, and the result depends on the platform libm.", "anchors": ["src/lab.rs: xyz_to_lab", "src/lab.rs: lab_to_xyz", "src/transform.rs: rgb_to_xyz", "src/transform.rs: xyz_to_rgb"]}
{"id": "C93", "title": "Editing in an ACES working space is lossless for stored images, up to a depth", "statement": "In f32 and in f64, converting an integer image to floating-point colours of ACES 2065-1 or ACEScg with rgb_to_rgb and those back to the original space does not panic, fills both destinations, and returns every image unchanged: sRGB up to 8 bits, sRGB with derived matrices up to 13 bits (f32) or 16 bits (f64), BT.709 and BT.2020 up to code 511, ACES and ACEScg up to 16 bits, and in f64 the two DCI-P3 spaces up to 8 bits.", "quantifier": "all images of any length with any codes up to the limit, both working spaces, both float types, every powf of the stated accuracy", "why_tests_cant": "There are 2^24 or more pixels per space, lost or kept by last-digit effects in the steep start of the curves, and the result depends on the platform libm.", "anchors": ["src/transform.rs: rgb_to_rgb", "src/transform.rs: rgb_to_rgb_matrix", "src/color_space_rgb.rs: ColorSpaceRGB"]}
{"id": "C94", "title": "The image conversion examples are total, local, and agree with each other", "statement": "For every byte string the pixel code of examples/convert.rs and of examples/convert_with_matrices.rs runs without panicking in f32, whatever the platform libm, and produces three byte strings of 3*floor(n/3) bytes, in which each pixel depends on the input pixel at the same place only (for convert.rs it is the conversion of that pixel from sRGB by rgb_to_rgb, bytes in the order R, G, B); bytes after the last whole pixel are ignored. In exact arithmetic the two programs give the same three images for every input.", "quantifier": "all byte strings, every libm", "why_tests_cant": "The examples are never run by the test suite; the input is any byte string.", "anchors": ["examples/convert.rs: main", "examples/convert_with_matrices.rs: main", "src/transform.rs: rgb_to_rgb"]}
{"id": "C95", "title": "Floating-point image conversion agrees with exact conversion to within one code", "statement": "For any two of nine built-in spaces, any source depth from 1 to 16 bits and any image, rgb_to_rgb in floating point and in exact real arithmetic (same constants, exact matrices and curves) both succeed and write the whole destination, and corresponding channels differ by at most: in f32 one code for sRGB (both) up to 13 bits (5 codes up to 16), BT.709 and BT.2020 up to 11 bits (22 up to 16), ACES and ACEScg up to 16 bits, Adobe RGB up to 8 bits (250 up to 16), and three codes for the two DCI-P3 spaces up to 8 bits (740 up to 16); in f64 one code for every space up to 16 bits, except BT.709 and BT.2020 above 11 bits (17 codes). One code is not true of DCI-P3 in f32 at 10 bits. Colours outside the target gamut are included.", "quantifier": "all images of any length, all 81 pairs of spaces, all depths from 1 to 16 bits, both float types, every powf of the stated accuracy", "why_tests_cant": "There are up to 2^48 pixels per pair; the deviation appears in dark channels near the gamut boundary, and depends on the platform libm.", "anchors": ["src/transform.rs: rgb_to_rgb", "src/transform.rs: rgb_to_rgb_matrix", "src/color_space_rgb.rs: ColorSpaceRGB", "src/rgb.rs: From"]}
{"id": "C96", "title": "Hero wavelength sampling converges to the spectral integral, at the rate 1/N, whatever numbers are drawn", "statement": "In exact arithmetic, for every reflectance that is Lipschitz over 360..780 nm, every N divisible by 4 and every sequence of random numbers in [0, 1), the estimate of examples/hero_wavelength_sampling.rs differs in X, Y and Z by at most C/N from 4/420 of the Riemann integral of colour matching function times D65 times reflectance, all three interpolated; C depends on the reflectance only. Every reflectance the program uses (interpolated spectra, and any combination of the three basis spectra, interpolated or joined by straight lines) is of this kind. The program always ends, without panic, for all 24 swatches and any 24 colours, and reports three times a minimum, mean and maximum in this order, of 24 colour differences none of which is negative. The factor 4/420 is not the one of to_xyz: for a perfect white, for which to_xyz gives Y = 100, the estimate has Y between 100.4 and 100.9 for every N from 16384 on.", "quantifier": "all Lipschitz reflectances, all sample counts divisible by 4, all sequences of random numbers, all colours", "why_tests_cant": "Each run draws other numbers, and a run shows neither the rate of convergence nor a bias of the limit; reflectances form a function space.", "anchors": ["examples/hero_wavelength_sampling.rs: main", "src/interpolation.rs: InterpolatorSprague", "src/interpolation.rs: InterpolatorLinear", "src/vspd.rs: to_xyz"]}
{"id": "C97", "title": "Interpolated spectra in floating point are those of exact arithmetic to within rounding", "statement": "In f32 and in f64, for every spectrum of at least six finite samples at strictly increasing, not necessarily evenly spaced wavelengths, with wavelengths and values of magnitude at most W and M (both between 2^(2-emax) and 2^(emax-30)), Sprague interpolation at every finite wavelength from the first to below the last sample returns a finite number within 10500 u M of the one computed in exact arithmetic (u the unit roundoff), within 1400 u M from the third sample to below the third-last, and exactly the sample at every sample but the last; linear interpolation at every finite wavelength is within 24 u M and exact at every sample. The last sample is not always returned exactly by Sprague interpolation.", "quantifier": "all spectra, all wavelengths, both float types, both build profiles, every powi of the stated accuracy", "why_tests_cant": "There are 2^32 / 2^64 bit patterns per channel, including NaN, infinities, subnormals and values next to every rounding boundary; a test samples a handful.", "anchors": ["src/interpolation.rs: InterpolatorSprague", "src/interpolation.rs: InterpolatorLinear"]}
{"id": "C98", "title": "Interpolated spectra leave the range of the samples by at most 25/128 of it", "statement": "In exact arithmetic, for every spectrum of at least six samples at strictly increasing wavelengths with values in [lo, hi], the Sprague interpolation at every wavelength from the first to the last sample lies in [lo - 25/128 (hi - lo), hi + 25/128 (hi - lo)], and both ends are attained: a reflectance in [0, 1] can become -25/128 or 153/128, never less or more. Changing every sample by at most d changes the interpolated value by at most 89/64 d, also attained. The same range holds for every value of an aligned spectrum, and in f32 and f64 up to 10500 u M.", "quantifier": "all spectra, all wavelengths, all ranges, both build profiles", "why_tests_cant": "The worst case is one alternating pattern of six neighbouring samples at the middle of a piece; a test with smooth spectra never meets it, and that it is the worst case is a statement about all spectra.", "anchors": ["src/interpolation.rs: InterpolatorSprague", "src/vspd.rs: align"]}
{"id": "C99", "title": "XYZ of a spectrum in floating point is that of exact arithmetic to within rounding", "statement": "In f64, for every spectrum, illuminant and colour matching functions of at least six samples each at strictly increasing whole wavelengths that share at least one wavelength with 360..780 nm, with values at most M, I and C in magnitude, to_xyz returns finite X, Y and Z within (1.5e10 k + 1.6e13 k^2) u M of those of exact arithmetic, u = 2^-53, where k is I C divided by the normaliser (the sum of illuminant times y-bar times the step). This holds for every uniform interval of a whole number of nanometres other than 10 and for every non-uniform spectrum between 360 and 780 nm. For the four tabulated illuminants and the CIE 1931 observer the error is at most M/10^6; in particular a white sampled every 5 nm has Y within 10^-6 of 100 in floating point.", "quantifier": "all spectra of any length and sampling, all illuminants and colour matching functions, both build profiles, every powi of the stated accuracy", "why_tests_cant": "There are 2^32 / 2^64 bit patterns per channel, including NaN, infinities, subnormals and values next to every rounding boundary; a test samples a handful.", "anchors": ["src/vspd.rs: to_xyz", "src/vspd.rs: align", "src/interpolation.rs: InterpolatorSprague", "src/illuminant.rs: spd::D65"]}
{"id": "C100", "title": "XYZ of a spectrum sampled every 10 nm in floating point is that of exact arithmetic to within rounding", "statement": "In f64, for every spectrum with uniform interval 10 at strictly increasing whole wavelengths (of any length and start, on the 10 nm grid or not) that has a sample between 360 and 780 nm, with values at most M in magnitude, and for every illuminant and colour matching functions of at least six samples each at strictly increasing whole wavelengths that share one with 360..780 nm, with values at most I and C, to_xyz (which builds the ASTM E2022 weighting table, cuts the spectrum to 360..780 nm and folds the weights outside it into the first and last) succeeds in floating point and in exact arithmetic, and X, Y and Z are finite and differ by at most (6e9 k + 1.7e13 k^2) u M, u = 2^-53, where k is I C divided by the sum of illuminant times y-bar every 1 nm. For the four tabulated illuminants and the CIE 1931 observer the error is at most M/10^6. Each of the 24 spectra of the colour checker is such a spectrum, and its XYZ under each of the four illuminants is within 2/10^6 of the exact one; a white sampled every 10 nm under D65 has Y within 10^-6 of 100.", "quantifier": "all spectra of any length and start, all illuminants and colour matching functions, both build profiles, every powi of the stated accuracy", "why_tests_cant": "There are 2^32 / 2^64 bit patterns per channel, including NaN, infinities, subnormals and values next to every rounding boundary; a test samples a handful.", "anchors": ["src/vspd.rs: to_xyz", "src/vspd.rs: weighting_factors_astme2022", "src/vspd.rs: adjust_weighting_factors_astme308", "src/vspd.rs: trim", "src/colorchecker.rs: SPECTRAL"]}
{"id": "C101", "title": "The reference colours of the colour checker are the conversions of its spectra", "statement": "In exact arithmetic, for each of the 24 spectra of the colour checker, to_xyz under D65 with the CIE 1931 functions gives the XYZ listed in XYZ_D65 to within 2e-14. Converting each listed XYZ with the matrix from the sRGB white to each of the eight spaces SRGB, ITUR_BT709, ITUR_BT2020, DCI_P3, ACES, ACES_CG, ADOBE_RGB_1998 and ALEXA_WIDE_GAMUT gives the listed linear colours to within 1e-15, whatever the sign of the channels. Converting the linear sRGB colours to ACES gives ACES_FROM_SRGB to within 1e-15. Encoding the listed linear colours of the eight spaces with the transfer function of the space gives the listed encoded colours to within 1e-15. So no entry of these eighteen tables is mistyped beyond those distances, and what a comparison in f64 still shows is due to rounding.", "quantifier": "all 24 patches, all listed tables, all channels, both build profiles, every choice of the exact constants", "why_tests_cant": "The tests compare the tables with what f64 computes, so an error of code and table alike, or one below the tolerance of the comparison, goes unseen; the two tables of ADOBE_RGB_1998 are not compared at all.", "anchors": ["src/colorchecker.rs: XYZ_D65", "src/colorchecker.rs: SRGB_LINEAR", "src/colorchecker.rs: SPECTRAL", "src/color_space_rgb.rs: rgb_workout", "src/vspd.rs: to_xyz"]}
{"id": "C102", "title": "The spectral example of the documentation gives its printed bytes, for every patch, library and build", "statement": "The program of the crate documentation (spectrum of a patch to XYZ under D65, to linear sRGB, encoded and quantised to 8 bits) returns the same bytes in f64 and in exact arithmetic for all 24 patches, without panic: 115, 82, 68 for dark skin as the documentation asserts, and 0 in the red channel of cyan, which lies outside sRGB. In f64 this holds for every powf and powi of the stated accuracy: every channel stays at least a hundredth of a code away from the rounding boundary.", "quantifier": "all 24 patches, every platform library of the stated accuracy, both build profiles", "why_tests_cant": "The documentation runs one patch on one platform; powf and powi differ between platforms, and a value near a rounding boundary would come out differently on some.", "anchors": ["src/lib.rs: example", "README.md", "src/vspd.rs: to_xyz", "src/transform.rs: xyz_to_rgb", "src/color_space_rgb.rs: SRGB", "src/rgb.rs: From", "src/colorchecker.rs: SPECTRAL"]}
{"id": "C103", "title": "LogC: codes survive the trip through linear light, and images written in ALEXA Wide Gamut are those of exact arithmetic to within one code", "statement": "In f32 and in f64, for every largest code M from 1 to 65535 and every pixel of codes up to M, decoding with the ALEXA LogC curve and encoding again gives the same pixel, although the two pieces of the curve meet only to within 2e-6 and the decoded values reach 55. Converting any image of 1 to 16 bits per channel from each of nine built-in spaces to ALEXA_WIDE_GAMUT with rgb_to_rgb succeeds in floating point and in exact arithmetic, fills the destination in both, and the channels differ by at most one code up to 14 bits and three codes up to 16 bits in f32, and by at most one code up to 16 bits in f64. Black becomes code 24 of 255 and 6082 of 65535.", "quantifier": "all pixels of all depths up to 16 bits, all images of any length, nine source spaces, both float types, every log10 and powf of the stated accuracy", "why_tests_cant": "There are up to 2^48 pixels per space, codes near the join of the two pieces are decided by the last digits, and the result depends on the platform's log10 and powf.", "anchors": ["src/color_space_rgb.rs: ALEXA_WIDE_GAMUT", "src/transform.rs: rgb_to_rgb", "src/transform.rs: rgb_to_rgb_matrix", "src/rgb.rs: From"]}
{"id": "C104", "title": "The fast conversion of fixed-shape spectra is the ASTM conversion under D65", "statement": "For every 40 samples from 380 to 770 nm with magnitudes at most M, both paths of SPD::to_xyz (scalar and AVX) give in exact arithmetic X, Y and Z within 1e-12 M of VSPD::to_xyz of the same samples under D65 with the CIE 1931 functions, so the three weight tables of spd.rs are the folded ASTM E2022 weights of that illuminant. In f32, for finite samples up to a million, neither path overflows, and the scalar result is within 5.5e-5 M and the AVX result within 6.1e-5 M of the exact VSPD result (white having Y = 100). The 24 spectra of its tests are, as f32 values, the spectra of the colour checker with the last sample repeated to 770 nm, and both paths give the reference XYZ_D65 to within one unit in the last place on all of them.", "quantifier": "all spectra of 40 finite f32 values up to a million in magnitude, both paths, both build profiles, every math library", "why_tests_cant": "The tests run 24 reflectances between 0 and 1 and compare with constants; spectra are forty-dimensional, and cancellation, overflow or a mistyped digit of a small weight show only elsewhere.", "anchors": ["src/spd.rs: to_xyz", "src/spd.rs: spd_to_xyz_scalar", "src/spd.rs: spd_to_xyz_avx", "src/spd.rs: W_X", "src/vspd.rs: to_xyz", "src/colorchecker.rs: XYZ_D65"]}
{"id": "C105", "title": "An uplifted colour comes back from its spectrum", "statement": "Lift a linear sRGB colour to a reflectance with uplift_my, light it with D65, integrate it against the CIE 1931 observer and turn the XYZ back into linear sRGB. In exact arithmetic the whole trip is, for every colour, one linear map to within 1e-8 of the size of the colour: red comes back as 0.99993882 r + 0.00001034 g - 0.00003266 b, green as 0.00009647 r + 1.00000152 g - 0.00001132 b, blue as 0.00008422 r + 0.00007246 g + 0.99982577 b; the intermediate XYZ is the published sRGB matrix times the colour to within 2e-4 of its size. In f64, for every finite colour with channels up to 1.01 in size, the trip succeeds, is finite and lands within 1e-6 of that map. Hence every 8-bit sRGB pixel, decoded, lifted, lit, converted back and encoded, keeps its red and green code exactly and its blue code to within one, in exact arithmetic and in f64; blue does move for some pixels (255 255 5 comes back with blue 6).", "quantifier": "for every linear colour; for every f64 colour in the stated range; for all 16777216 pixels; debug and release builds", "why_tests_cant": "The only test of the function prints 24 colours and asserts nothing. There are 2^32 / 2^64 bit patterns per channel, including NaN, infinities, subnormals and values next to every rounding boundary; a test samples a handful.", "anchors": ["src/uplifting.rs: uplift_my", "src/uplifting.rs: my_basis", "src/vspd.rs: to_xyz", "src/transform.rs: xyz_to_rgb"]}
{"id": "C106", "title": "Colour differences in floating point: order does not matter, equal colours are zero apart, and the 1976 difference is accurate", "statement": "In f32 and f64, delta_E_1976 and delta_E_2000 give the same bits in either order of their arguments for all pairs of colours, NaN and infinities included, if powi with exponent 2 is the product and sin and to_radians are odd functions. For a finite colour with channels up to 4096 in size both differences of the colour to itself are +0, although the 2000 formula goes through quotients by sums that could vanish, roots that could be of a negative and a hue average. delta_E_1976 of finite colours with channels up to 2^50 is finite and within 4u of the Euclidean distance plus an underflow term (u = 2^-24 and 2^-73 in f32, 2^-53 and 2^-535 in f64), so it is positive for colours at least 2^-72 apart in f32 (2^-534 in f64). Closer distinct colours may be zero apart: lightness 0 and 2^-80 in f32.", "quantifier": "for all pairs of colours of either float type; for every math library with the stated properties; debug and release builds", "why_tests_cant": "Six floats per call; a sign that is lost only at a hue difference of exactly 180 degrees or only for a grey may show in none of the 14 pairs of the tests. There are 2^32 / 2^64 bit patterns per channel, including NaN, infinities, subnormals and values next to every rounding boundary; a test samples a handful.", "anchors": ["src/lab.rs: delta_E_1976", "src/lab.rs: delta_E_2000"]}
{"id": "C107", "title": "Colour differences when the colours move: CIE 1976 is steady, CIEDE2000 jumps at opposite hues", "statement": "In exact arithmetic, moving both colours changes delta_E_1976 by at most the sum of the two moves. delta_E_2000 is at most sqrt 4.5 times the sum of the delta_E_1976 of its two colours to any third colour, so it tends to zero when both approach the same colour. But it is not continuous elsewhere: for every lightness L and every a > 0 the pair (L, a, 0), (L, -a, 0) has, at every distance eps, two pairs of colours at distance at most eps from each other and at most eps/2 from it, whose delta_E_2000 differ by at least 0.003 a^2 / (1.03 + 0.045 a)^2, more than 0.69 for a = 50. (The mean of two opposite hues flips by 180 degrees when one of them crosses the other's opposite; this is in the published formula, and the code reproduces it.)", "quantifier": "for all colours and all distances, exact arithmetic; every choice of the exact constants", "why_tests_cant": "Continuity is a statement about all neighbourhoods of all pairs of colours; a test compares finitely many. The claim ranges over a continuum of inputs and a conditional branch; tests hit isolated points and accept an epsilon that hides branch errors.", "anchors": ["src/lab.rs: delta_E_1976", "src/lab.rs: delta_E_2000"]}
{"id": "C108", "title": "LogC: images read from ALEXA Wide Gamut", "statement": "Converting any image of 1 to 16 bits per channel from ALEXA_WIDE_GAMUT to each of the nine other spaces with rgb_to_rgb succeeds in floating point and in exact arithmetic and fills the destination in both, although linear values reach 57 before the matrix and 128 after it. In f64 the channels differ by at most one code up to 16 bits, except 17 codes at 16 bits for BT.709 and BT.2020 (one up to 11 bits), whose curves have a step, and two codes at 16 bits for the two P3 spaces. In f32, bright pixels cost precision in the dark ones of the same row of the matrix: two codes at 8 bits for sRGB and BT.709, one for BT.2020, seven for Adobe RGB, thirteen for P3, and one code up to 11 bits for the two ACES spaces. When no code is above 57 percent of full scale, which is scene light up to 1, f32 is within one code up to 13 bits for sRGB, 11 for BT.709 and BT.2020, 16 for ACES, within two codes at 8 bits for Adobe RGB and three for P3.", "quantifier": "for all images of any length, all code depths from 1 to 16 bits, all nine targets, both float types; for every math library with the stated accuracy; debug and release builds", "why_tests_cant": "There are 2^32 / 2^64 bit patterns per channel, including NaN, infinities, subnormals and values next to every rounding boundary; a test samples a handful.", "anchors": ["src/color_space_rgb.rs: ALEXA_WIDE_GAMUT", "src/transform.rs: rgb_to_rgb", "src/transform.rs: rgb_to_rgb_matrix", "src/rgb.rs: From"]}
{"id": "C109", "title": "Daylight chromaticities in floating point", "statement": "For every finite temperature from 4000 to 25000 K, cct succeeds in f32 and in f64; its x is within 2 u and its y within 8 u of the CIE daylight locus at exactly that temperature (u is half a unit in the last place of 1, and the locus is the pair of published cubics in 1000/T with the quadratic for y), x lies between 0.24 and 0.39, y between 0.23 and 0.4, and Y is exactly 1. For every finite temperature outside the interval it refuses. Hotter daylight has strictly smaller x as soon as the temperatures differ by half a kelvin in f32 or 1e-9 K in f64, and strictly smaller y from 3 K in f32 or 1e-8 K in f64, also across the switch of cubics at 7000 K.", "quantifier": "for all finite float temperatures and pairs of temperatures, f32 and f64; every math library", "why_tests_cant": "There are 2^32 / 2^64 bit patterns per channel, including NaN, infinities, subnormals and values next to every rounding boundary; a test samples a handful.", "anchors": ["src/illuminant.rs: cct"]}
{"id": "C110", "title": "xyY and XYZ there and back in floating point", "statement": "In f32 and in f64, for every chromaticity with x >= 0, y >= 0.00001 and x + y <= 1 and every Y from 0.0001 to 1000000, converting xyY to XYZ and back succeeds with finite values, x within 20 u, y within 18 u relative and Y within 2.1 u relative (u is half a unit in the last place of 1). For every XYZ with X, Z >= 0, Y in the same range and X + Y + Z <= 100000 Y, converting to xyY and back gives X within 6.2 u relative (absolute below 0.000001), Y within 2.1 u relative, and Z within 27 u of the sum X + Y + Z; Z is recovered from 1 - x - y, so its error is relative to the sum and not to Z.", "quantifier": "for all finite float triples in the stated ranges, f32 and f64; every math library", "why_tests_cant": "There are 2^32 / 2^64 bit patterns per channel, including NaN, infinities, subnormals and values next to every rounding boundary; a test samples a handful.", "anchors": ["src/chromaticity.rs: XYY::from_xyz", "src/xyz.rs: XYZ::from_chromaticity"]}
{"id": "C111", "title": "Greys stay grey", "statement": "Converting a grey (k, k, k) of any depth between any two of the nine spaces gives, in exact arithmetic, each channel within one code of what decoding k with the source transfer function and encoding it with the target's alone gives: up to 12 bits per output channel, 11 for the BT.709 and BT.2020 targets. Between the six spaces whose matrices are computed from their primaries all three channels are exactly that code at every depth. In f32 and f64 the same holds with the distance between floating point and exact arithmetic added (0 or 1 code more than C95 allows). It cannot hold at every depth: at 16 bits the sRGB matrices as written take white more than two codes away in ACEScg.", "quantifier": "for all images of greys of every length, all depths in the stated ranges, all 81 pairs of spaces, exact, f32 and f64", "why_tests_cant": "There are 2^32 / 2^64 bit patterns per channel, including NaN, infinities, subnormals and values next to every rounding boundary; a test samples a handful.", "anchors": ["src/transform.rs: rgb_to_rgb", "src/color_space_rgb.rs: model_f32", "src/color_space_rgb.rs: model_f64"]}
{"id": "C112", "title": "Approximate equality of colours and spectra, and their bounds", "statement": "Two RGB or two XYZ colours are approximately equal within a margin exactly when all three components are, and two spectra exactly when they have the same number of samples and at every position wavelength and value are (a spectrum is never approximately equal to a longer one). For any scalar comparison that is reflexive, symmetric and implied by ==, the comparison of colours and of spectra is reflexive, symmetric and implied by ==. min_value and max_value of RGB and XYZ have finite components, and every finite colour lies between them in each component, in f32 and f64.", "quantifier": "for all colours and spectra of every length, every margin, every numeric type; bounds for all finite f32 and f64 values", "why_tests_cant": "Tests use approximate equality as their yardstick; none of them tests the yardstick.", "anchors": ["src/xyz.rs: ApproxEq for XYZf32", "src/xyz.rs: ApproxEq for XYZf64", "src/xyz.rs: Bounded for XYZ", "src/rgb.rs: ApproxEq for RGBf64", "src/vspd.rs: ApproxEq for &VSPD"]}
{"id": "C113", "title": "Chromatic adaptation in floating point", "statement": "For any two white points with X in [88, 112], Y in [99, 101] and Z in [30, 140] (a box containing every named white of the library and illuminant A) bradford, cat02 and von_kries return, in f32 and in f64, a matrix of finite numbers whose nine entries are within 250 half-units in the last place of 1 (1.5e-5 in f32, 2.8e-14 in f64) of the matrix that exact arithmetic gives for the same two whites; and bradford's and cat02's matrix, applied in floating point to the source white, gives the destination white within 0.0026 (f32) or 4.9e-12 (f64) in every component. It does not always give it exactly.", "quantifier": "for all pairs of finite f32 or f64 whites in the stated box, equal or not, and the three methods", "why_tests_cant": "There are 2^32 / 2^64 bit patterns per channel, including NaN, infinities, subnormals and values next to every rounding boundary; a test samples a handful.", "anchors": ["src/chromatic_adaptation.rs: bradford", "src/chromatic_adaptation.rs: cat02", "src/chromatic_adaptation.rs: von_kries", "src/math.rs: inverse", "src/math.rs: Mul"]}
{"id": "C114", "title": "inverse() in floating point", "statement": "Let a be a finite f32 or f64 matrix with entries at most m in magnitude (m between 0.01 and 1000) whose last column is not (0, 0, 1) up to rounding, and |det a| >= d >= 57 m^3 u, u being half a unit in the last place of 1. Then inverse() returns a matrix of finite numbers, each entry within (13 m^2/d + 113 m^5/d^2) u of the true inverse, and its exact product with a is the identity up to 3 m times that. Some lower bound on the determinant is needed: in f32 inverse() refuses the diagonal matrix with entries 2^-60, whose inverse is harmless.", "quantifier": "for all finite f32 and f64 matrices, every bound m and every d in the stated ranges", "why_tests_cant": "There are 2^32 / 2^64 bit patterns per channel, including NaN, infinities, subnormals and values next to every rounding boundary; a test samples a handful.", "anchors": ["src/math.rs: inverse"]}
{"id": "C115", "title": "A colour space built from primaries in floating point", "statement": "Let red, green, blue and white be chromaticities in f32 or f64 with |x|, |y|, |1-x-y| <= 1.1 and white y >= 0.2. Write w_r, w_g, w_b for the white's scaling factor of each row, d >= 0.0275 for a lower bound of their magnitudes and m <= 1000 for an upper bound of the entries of the exact matrix. Then all nine entries that build_xyz_to_rgb_matrix computes are finite and within (12 + 463 m)/d + m + 0.001 half-units in the last place of 1 of the exact matrix for the same four chromaticities. That exact matrix is the one the code computes in exact arithmetic: it sends the white, scaled to Y = 1, to (1, 1, 1) and each primary to a multiple of its own axis, a nonzero one if the primaries are not collinear. For the sRGB primaries (d = 0.14, m = 3.25) this is at most 11000 half-units, 0.00066 in f32.", "quantifier": "for all f32 and f64 primaries and whites in the stated range, real or imaginary, and all bounds d and m; the exact part for all real chromaticities", "why_tests_cant": "There are 2^32 / 2^64 bit patterns per channel, including NaN, infinities, subnormals and values next to every rounding boundary; a test samples a handful.", "anchors": ["src/color_space_rgb.rs: build_xyz_to_rgb_matrix"]}
{"id": "C116", "title": "ColorSpaceRGB::new in floating point", "statement": "Under the hypotheses of C115 write e = (12 + 463 m)/d + m + 0.001 (half-units in the last place of 1, at most 0.01 in all), M = m + 0.01, and let the exact matrix have |det| >= D and a last column further than 0.011 from (0, 0, 1) in the sense of the test inverse() makes. If D exceeds 18 M^2 e u by at least 57 M^3 u, the excess being k, then ColorSpaceRGB::new does not panic, in f32 or in f64. The space it returns holds the four chromaticities and the two transfer functions it was given; its XYZ-to-RGB matrix is within e of the exact one and sends the white, scaled to Y = 1, to (1, 1, 1) within 12 e; its RGB-to-XYZ matrix is within (13 M^2/k + 113 M^5/k^2) half-units of the inverse of the other, and the product of the two is the identity within 3 M times that. For the sRGB primaries in f32 white comes out within 0.008 and the product within 0.0016.", "quantifier": "for all f32 and f64 primaries and whites in the stated range, every pair of transfer functions and all bounds d, m and D", "why_tests_cant": "There are 2^32 / 2^64 bit patterns per channel, including NaN, infinities, subnormals and values next to every rounding boundary; a test samples a handful.", "anchors": ["src/color_space_rgb.rs: new", "src/color_space_rgb.rs: build_xyz_to_rgb_matrix", "src/math.rs: inverse"]}
{"id": "C117", "title": "Luminance of a spectrum in floating point", "statement": "For a spectrum of 1 to 1000 samples at whole wavelengths with a uniform whole interval, values of size at most M, and colour matching functions tabulated at whole wavelengths with values at most C whose range meets the spectrum's, spd_to_nit in f64 returns a finite number within M C / 10^9 of what exact arithmetic gives, in debug and release mode. With the built-in CIE 1931 functions and a spectrum whose samples lie in 360 to 830 nm, this is within M / (5 * 10^8) of 683 times the mean of sample value times tabulated y_bar at the sample's wavelength: for one unit of power at 550, 555 and 560 nm, 680.712.", "quantifier": "for all spectra up to 1000 samples, all values including zero and negative ones, all whole start wavelengths and intervals, both build modes, every math library whose powi is accurate as in C97", "why_tests_cant": "There are 2^32 / 2^64 bit patterns per channel, including NaN, infinities, subnormals and values next to every rounding boundary; a test samples a handful.", "anchors": ["src/photometry.rs: spd_to_nit", "src/vspd.rs: align", "src/cmf.rs: CIE_1931_2_DEGREE"]}
{"id": "C118", "title": "The colour checker by name", "statement": "NAMES holds 24 distinct names. Every one of the 44 tables of colours and the table of spectra, all hash maps from strings, has a value under each of these names and panics on indexing with any other string, and the value under the k-th name is the k-th row as written. For every name, in exact arithmetic, the spectrum of that name seen under D65 is the XYZ of that name within 2e-14; that XYZ converted to each of eight spaces is the linear reference of that name within 1e-15; and that, encoded, is the encoded reference of that name within 1e-15.", "quantifier": "for all strings and all 45 tables; the conversions for all 24 names, every fuel and both build modes", "why_tests_cant": "The tests iterate over the tables themselves, so a missing or misspelt key is never looked up.", "anchors": ["src/colorchecker.rs: NAMES", "src/colorchecker.rs: SPECTRAL", "src/colorchecker.rs: XYZ_D65", "src/colorchecker.rs: SRGB_LINEAR"]}
{"id": "C119", "title": "Linear colours in floating point survive the trip through XYZ", "statement": "For each built-in space and each of the six listed white points the two conversion matrices exist, in f32 and in f64. A linear colour with finite channels of size at most M, for any M from 2^-40 to 2^40, inside the gamut or not, converted to XYZ and back has finite channels, each within t M of the original, and so has a colour in XYZ converted to RGB and back. In f32 t is 7.4e-5 for sRGB and 1.71e-5 for Adobe RGB, whose matrices are printed with few decimals, and between 1.8e-6 and 4.4e-6 for the other eight. In f64 t is 7e-5, 1.5e-5, 2.1e-6 for ALEXA, 1.1e-10 for ACES, and at most 8e-15 for the six spaces whose matrices are computed from their primaries.", "quantifier": "for all finite f32 and f64 colours up to the stated size, ten spaces, six whites, both directions", "why_tests_cant": "There are 2^32 / 2^64 bit patterns per channel, including NaN, infinities, subnormals and values next to every rounding boundary; a test samples a handful.", "anchors": ["src/transform.rs: rgb_to_xyz", "src/transform.rs: xyz_to_rgb", "src/transform.rs: rgb_to_xyz_matrix", "src/transform.rs: xyz_to_rgb_matrix"]}
{"id": "C120", "title": "Printed values can be told apart", "statement": "Two RGBu8 or RGBu16 colours print as the same text only if they are the same colour. For RGBf, XYZ, samples, spectrum shapes, VSPD and SPD the same holds whenever it holds of the numbers: if different numbers have different texts, none of which contains a comma, a bracket, a parenthesis or the letter V, then different values print differently, varying spectra differ from uniform ones, and no two lists of samples run together.", "quantifier": "for all 8-bit and 16-bit colours; for all number types and texts with the stated property, all lists of samples of any length", "why_tests_cant": "No test compares printed text, and one that did would cover a few values only.", "anchors": ["src/rgb.rs: fmt", "src/xyz.rs: fmt", "src/vspd.rs: fmt", "src/spd.rs: fmt"]}
{"id": "C121", "title": "An image in ALEXA Wide Gamut converted to ALEXA Wide Gamut comes back unchanged up to ten bits", "statement": "In f32 and in f64, rgb_to_rgb from ALEXA_WIDE_GAMUT to ALEXA_WIDE_GAMUT does not panic and returns every image with codes from 0 to N unchanged, for every N from 1 to 1023, although linear values reach 55 and the two printed matrices are inverse only to six digits. It is not so at eleven bits: with any accurate powf the pixel (100, 0, 2047) of 2047 comes back with red 99, in either format.", "quantifier": "for all images of any length with codes up to N, every N up to 1023, both float types, every log10 and powf of the stated accuracy", "why_tests_cant": "The change is one code in a dark channel under a bright one; there are 2^30 pixels at ten bits, and the result depends on the platform libm.", "anchors": ["src/color_space_rgb.rs: ALEXA_WIDE_GAMUT", "src/transform.rs: rgb_to_rgb", "src/transform.rs: rgb_to_rgb_matrix", "src/rgb.rs: From"]}
{"id": "C122", "title": "An interpolated value depends on six samples around it", "statement": "In any arithmetic (f32, f64 or exact) and at any wavelength x, inside the spectrum or not, there are six consecutive samples such that Sprague interpolation at x gives the same result, or panics alike, for any two spectra on the same wavelengths that agree in these six. In exact arithmetic, for increasing wavelengths with x between the k-th and the next, they are samples k-2 to k+3, or the first or last six when these run over an end; so changing one sample changes the curve only within three intervals of it.", "quantifier": "for all spectra of at least six samples on any wavelengths, all x, all number types, both build modes; the position of the six for all increasing wavelengths in exact arithmetic", "why_tests_cant": "The claim ranges over a continuum of inputs and a conditional branch; tests hit isolated points and accept an epsilon that hides branch errors.", "anchors": ["src/interpolation.rs: evaluate", "src/interpolation.rs: new", "src/interpolation.rs: coeff_a"]}
{"id": "C123", "title": "Aligning a spectrum to a grid it already has changes nothing", "statement": "In exact arithmetic, align of an evenly spaced spectrum to its own shape returns the spectrum itself, samples and shape. Aligned to every m-th of its own wavelengths, from the p-th to the q-th, it returns exactly those samples. Aligning twice to the same shape is the same as aligning once, for spectra ending inside the range or outside, provided that the ends inside the range lie on the requested grid and the range holds at least two points.", "quantifier": "for all spectra of at least two evenly spaced samples, any values, every p, q and m; for the last part every range and step; both build modes", "why_tests_cant": "The claim ranges over a continuum of inputs and a conditional branch; tests hit isolated points and accept an epsilon that hides branch errors.", "anchors": ["src/vspd.rs: align", "src/vspd.rs: interpolate", "src/vspd.rs: extrapolate"]}
{"id": "C124", "title": "Exposure in whole stops passes through the linear conversions bit for bit", "statement": "For each built-in space and each of the six listed white points, in f32 and in f64: multiplying a linear colour by 2^k and converting it to XYZ gives exactly the same floats, signs of zeros included, as converting it and multiplying the result by 2^k; and likewise from XYZ to RGB. In f32 this holds for k from 0 to 60 and every colour, inside the gamut or not, whose channels are 0 or have a size between 2^-36 and 2^50; in f64 for k from 0 to 480 and sizes between 2^-480 and 2^480. It fails for the smallest numbers: the least positive red of f32 is lost in sRGB before it can be doubled.", "quantifier": "for all f32 and f64 colours with channels zero or of the stated sizes, all k in the stated ranges, ten spaces, six whites, both directions", "why_tests_cant": "There are 2^32 / 2^64 bit patterns per channel, including NaN, infinities, subnormals and values next to every rounding boundary; a test samples a handful.", "anchors": ["src/transform.rs: rgb_to_xyz", "src/transform.rs: xyz_to_rgb", "src/rgb.rs: mul", "src/xyz.rs: mul", "src/math.rs: mul"]}
{"id": "C125", "title": "L*a*b* and chromaticity do not depend on exposure in whole stops", "statement": "In f32 and in f64, and with any powf: a colour and its reference white both multiplied by 2^k have exactly the L*a*b* floats of the colour under the original white, zero whites, infinities and NaN included; and a colour multiplied by 2^k has exactly the same chromaticity x, y, and a luminance Y exactly 2^k times as large. For L*a*b* the components may be 0 or any normal number up to 2^60 in f32 (2^500 in f64), for chromaticities 0 or of size 2^-96 to 2^60 (2^-960 to 2^500), and k goes from 0 to 60 (500).", "quantifier": "for all f32 and f64 colours and whites with components zero or of the stated sizes, all k in the stated ranges, every math library", "why_tests_cant": "There are 2^32 / 2^64 bit patterns per channel, including NaN, infinities, subnormals and values next to every rounding boundary; a test samples a handful.", "anchors": ["src/lab.rs: xyz_to_lab", "src/chromaticity.rs: from_xyz", "src/xyz.rs: mul", "src/xyz.rs: div"]}
{"id": "C126", "title": "Chromatic adaptation depends on the two whites only up to a common exposure", "statement": "In f32 and in f64, bradford, cat02 and von_kries called with both whites multiplied by 2^k return exactly the matrix, bit for bit, that they return for the original whites, or panic alike; this includes the shortcut for equal whites and whites whose responses are zero. The components may be 0 or of size 2^-60 to 2^60 in f32 with k from 0 to 60, and 0 or of size 2^-800 to 2^500 in f64 with k from 0 to 500.", "quantifier": "for all pairs of f32 or f64 whites with components zero or of the stated sizes, all k in the stated ranges, three adaptation methods", "why_tests_cant": "There are 2^32 / 2^64 bit patterns per channel, including NaN, infinities, subnormals and values next to every rounding boundary; a test samples a handful.", "anchors": ["src/chromatic_adaptation.rs: bradford", "src/chromatic_adaptation.rs: cat02", "src/chromatic_adaptation.rs: von_kries"]}
{"id": "C127", "title": "The fast spectrum conversions follow exposure in whole stops bit for bit", "statement": "In f32, multiplying a 40-sample spectrum by the constant spectrum 2^k, k >= 0, and converting it, by the scalar loop with its compensated sums or by the AVX one with its eight lanes, gives in each of X, Y and Z exactly the float obtained by converting the original spectrum and multiplying by 2^k, signs of zeros included, whenever that component of the brighter result is finite. The samples may be 0 or of any size from 2^-47 up, of either sign. Below that it fails: the least positive sample at one end is lost before it can be multiplied by 2^24.", "quantifier": "for all 40-sample f32 spectra with finite samples that are zero or of the stated size, all k >= 0 for which 2^k is a float, both loops", "why_tests_cant": "There are 2^32 / 2^64 bit patterns per channel, including NaN, infinities, subnormals and values next to every rounding boundary; a test samples a handful.", "anchors": ["src/spd.rs: spd_to_xyz_scalar", "src/spd.rs: spd_to_xyz_avx", "src/spd.rs: hadd_avx"]}
{"id": "C128", "title": "Linear and fast spectrum conversions treat negative colours as the mirror image of positive ones", "statement": "In f32 and in f64, and with any matrix, rgb_to_xyz of -c and xyz_to_rgb of -c give in each component the negative of what they give for c, as compared by ==, or NaN where that is NaN: no rounding error, overflow or underflow depends on the sign. The same holds for the scalar and the AVX conversion of an f32 spectrum with all its samples negated. The bits may differ for zeros: black and negative black in XYZ both have red +0 in sRGB.", "quantifier": "for all matrices, all colours and all spectra of floats, of any size, infinities and NaN included", "why_tests_cant": "There are 2^32 / 2^64 bit patterns per channel, including NaN, infinities, subnormals and values next to every rounding boundary; a test samples a handful.", "anchors": ["src/transform.rs: rgb_to_xyz", "src/transform.rs: xyz_to_rgb", "src/rgb.rs: neg", "src/xyz.rs: neg", "src/math.rs: mul", "src/spd.rs: spd_to_xyz_scalar", "src/spd.rs: spd_to_xyz_avx", "src/spd.rs: hadd_avx"]}
{"id": "C129", "title": "Brighter light never gets smaller X and Y, except in the compensated loop", "statement": "In f32, raising any samples of a spectrum, by however little, never lowers the X and Y of the AVX conversion, rounding and overflow included, unless a result is NaN. The same holds in f32 and f64 for raising any channels of a linear colour converted by rgb_to_xyz, for eight built-in spaces (all but ACES and ALEXA Wide Gamut) and six white points, and for Z too in sRGB, SRGB_DRV, BT.709 and Adobe RGB. It is false of the scalar loop, whose compensated sum can fall: raising one sample of a nonnegative spectrum by its last bit lowers X. It is false of Z of spectra because one weight is negative.", "quantifier": "for all pairs of finite f32 spectra of equal length, and all pairs of finite f32 or f64 colours, ordered sample by sample or channel by channel, negative values included", "why_tests_cant": "There are 2^32 / 2^64 bit patterns per channel, including NaN, infinities, subnormals and values next to every rounding boundary; a test samples a handful.", "anchors": ["src/spd.rs: spd_to_xyz_avx", "src/spd.rs: hadd_avx", "src/spd.rs: spd_to_xyz_scalar", "src/spd.rs: W_Z", "src/transform.rs: rgb_to_xyz", "src/transform.rs: rgb_to_xyz_matrix", "src/math.rs: mul"]}
