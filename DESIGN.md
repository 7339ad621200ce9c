# Formal model of colorspace-rs: design

The model is written in Rocq (Coq 8.16.1) under `rocq/theories/`, from the text of
`/repo/src` only. The Rust code was never built or run.

## How the code is represented

* **One generic model, several number types.** The Rust code is generic over
  `T: Real` (math.rs 530-559). The model does the same with a *lawless* type class `RealOps T`:
  operations only, no equations. Each Rust function is transcribed once. Functions the source
  fixes to `f32` or `f64` are generic in the model too, so one transcription serves exact
  arithmetic and the real format. `model_f32` of color_space_rgb.rs repeats the literals of
  `model_f64`; the generic definition stands for both. The instances are
  * `xr`, *checked exact reals* (`XReal.v`): `Fin r | Bad`. Division by zero, square root of a
    negative, logarithm of a non-positive and power of a negative are `Bad`, and comparisons with
    `Bad` are false. A theorem "`f (Fin x) = Fin y`" therefore also says that no such operation
    took place; Coq's total division on R cannot hide one. `Bad` stands for NaN and for
    infinities alike, so nothing about `Bad` results carries over to a distinction between them.
    The format constants (`epsilon`, `min_positive_value`, largest value, approximate equality) are a
    parameter `XConst`; theorems that need more assume `XConstOk`: epsilon and the
    smallest normal number are positive and below 1/1000, and two numbers within the given
    absolute margin are approximately equal. `f64_const_ok` shows the assumption can be met;
  * `f32` and `f64` (`FloatInst.v`), Flocq's IEEE-754 formats (`BinarySingleNaN`), rounding to
    nearest even, with infinities, signed zeros and subnormals. All NaNs are one value.
    Functions the platform supplies (`sin`, `exp`, `powf`, `powi`, ...) and `float_cmp` are
    fields of a record argument `libm`: theorems hold for every such record.
* **Panics** are an `outcome`: `Ret`, `Panic`, and `OutOfFuel` for the two `while` loops of
  `VSPD::extrapolate`, which take fuel. Theorems say that some amount of fuel, given in the
  statement, is enough, or hold for every amount.
* **`debug`** is a boolean parameter where the result depends on overflow checks
  (`usize` subtraction in `InterpolatorSprague::evaluate`); theorems hold for both values.
* **Slices, arrays and vectors** are lists, `usize` is `nat` with explicit panics on
  underflow and out-of-range indices. Where Rust fixes a length in the type, the theorem
  has a length hypothesis.
* **Closures** (`oetf`, `eotf`) are functions.
* Every definition cites file and lines.

"Exact arithmetic" in a property means the `xr` instance. "Bit for bit" means the Flocq
instances.

## Files

**The model**

| file | contents |
|---|---|
| `Outcome.v` | Results of Rust code that may panic or, for [while] loops run with fuel in the model, may not have finished |
| `RealOps.v` | The number type the Rust code is generic over |
| `MathModel.v` | Model of src/math.rs |
| `ColorModel.v` | Models of src/rgb.rs, src/xyz.rs, src/chromaticity.rs and the matrix-times-colour operators of src/math.rs |
| `AdaptModel.v` | Model of src/chromatic_adaptation.rs |
| `SpaceModel.v` | Model of src/color_space_rgb.rs |
| `TransformModel.v` | Model of src/transform.rs |
| `ExampleModel.v` | Model of the pixel code of examples/convert.rs and examples/convert_with_matrices.rs; the reading and writing of PNG files is not modelled |
| `LabModel.v` | Model of src/lab.rs |
| `IllumModel.v` | Model of the chromaticity part of src/illuminant.rs (mod xy) |
| `InterpModel.v` | Model of src/interpolation.rs, with the VSPD data types of src/vspd.rs it uses |
| `VspdModel.v` | Model of src/vspd.rs, src/photometry.rs and the CMF type of src/cmf.rs |
| `SpdModel.v` | Model of the fixed-shape SPD of src/spd.rs (f32 in the source) |
| `UpliftModel.v` | Model of src/uplifting.rs and of the tabulated spectra built with vspd! and from_values |
| `HeroModel.v` | Model of examples/hero_wavelength_sampling.rs |
| `CheckerModel.v` | Model of the lookup by name in src/colorchecker.rs: hash maps from String built by maplit's hashmap! and read by get or indexing |
| `ShowModel.v` | Model of the Display and Debug implementations: what each writes around the texts of its numbers |

**Literal tables, copied from the source by script**

| file | contents |
|---|---|
| `DataIllum.v` | Tabulated illuminants of src/illuminant.rs: (wavelength, value) pairs as written there |
| `DataCmf.v` | CIE 1931 2-degree colour matching functions of src/cmf.rs |
| `DataUplift.v` | Basis spectra of src/uplifting.rs |
| `DataSpd.v` | Tables of src/spd.rs: tristimulus weights and the BABELCOLOR spectra |
| `DataChecker.v` | Colour checker spectra of src/colorchecker.rs |
| `DataReference.v` | Reference colours of the colour checker in src/colorchecker.rs, in the order of NAMES (13-38) |
| `DataLogc.v` | The encoded ALEXA reference colours in src/colorchecker.rs, in the order of NAMES (13-38) |
| `DataKeyed.v` | The tables of src/colorchecker.rs with their keys, as written there |

**Number instances and plain specifications**

| file | contents |
|---|---|
| `XReal.v` | Checked exact reals: the instance of RealOps for "exact arithmetic" |
| `FloatInst.v` | IEEE 754 binary floating point: the instance of RealOps for f32 and f64 |
| `SpecLin.v` | Plain 3x3 linear algebra over the reals, written out entry by entry |

**Lemmas**

| file | contents |
|---|---|
| `FloatProofs.v` | Facts about the IEEE instance: order, clamping, quantisation, commutativity, conversion |
| `MatProofs.v` | Matrix33 on exact reals |
| `GjProofs.v` | Gauss-Jordan inversion on exact reals |
| `AdaptProofs.v` | xyY/XYZ conversion and chromatic adaptation on exact reals |
| `SpaceProofs.v` | ColorSpaceRGB::new on exact reals |
| `TransferProofs.v` | Transfer functions of color_space_rgb.rs on exact reals |
| `LabProofs.v` | lab.rs on exact reals |
| `VspdProofs.v` | Shared lemmas about spectra of variable length (vspd.rs) |
| `SpragueProofs.v` | Lemmas about Sprague interpolation (interpolation.rs) in exact arithmetic |
| `AlignProofs.v` | Lemmas about interpolate, extrapolate and align (vspd.rs) in exact arithmetic |
| `LagrangeProofs.v` | Lagrange coefficients of ASTM E2022 (vspd.rs 686-737) in exact arithmetic |
| `WeightProofs.v` | The E2022 weighting loops (vspd.rs 559-638) as a list of contributions: entry (p, (c, t)) adds c * s[t] * y[t] to weight p |
| `LinProofs.v` | How values flow through the spectral code: three runs on spectra with the same wavelengths, the values of the third being a fixed linear combination of those of the first two, stay so related (exact arithmetic, NaN/infinity in step) |
| `XyzProofs.v` | Closed forms for align on matching grids and for to_xyz (vspd.rs 397-526), exact arithmetic |
| `WhiteProofs.v` | Interpolating a 5 nm table to 1 nm in integers, so that sums over it can be evaluated |
| `ErrProofs.v` | Rounding errors of IEEE operations, and conversion between widths as a function on R |
| `KahanProofs.v` | Rounding error of the compensated (Kahan) sum and of the eight-lane sum of spd.rs |
| `RelErr.v` | Relative errors over R: products, quotients, sums and powers |
| `CurveProofs.v` | A two-piece transfer curve and its inverse in floating point, for a powf of bounded relative error |
| `LabErrProofs.v` | lab.rs in floating point: how far each channel is from the exact CIE formulas, for a powf and a powi of bounded error |
| `LabTripProofs.v` | a colour from linear light to XYZ, to Lab and back again, in floating point |
| `ConvMat.v` | The conversion matrices between the built-in spaces as rational numbers, and how far the floating-point ones are from them |
| `ConvProofs.v` | Floating-point image conversion against exact arithmetic: the pieces |
| `StratProofs.v` | Stratified sums against Riemann integrals |
| `HeroProofs.v` | Lemmas on hero wavelength sampling (examples/hero_wavelength_sampling.rs) in exact arithmetic |
| `PolyProofs.v` | The product of two Sprague interpolants on a 1 nm cell as an integer polynomial: exact integral and Lipschitz constant of y-bar times D65 |
| `SpragueErrProofs.v` | interpolation.rs in floating point: rounding errors measured in units of the size of the samples |
| `GridProofs.v` | f64 numbers that are integers: wavelengths of tabulated spectra |
| `TenProofs.v` | the weighting tables in f64 at 10 nm: every sum tracked with the number of terms that went into it |
| `RefProofs.v` | The E2022 table every 10 nm over the integers, to compute the colours of tabulated spectra exactly |
| `PowProofs.v` | Powers with a fractional exponent bracketed by integer arithmetic: short products, rounded down or up |
| `LogProofs.v` | The ALEXA LogC curve in floating point, for a log10 and a powf of bounded error |
| `OppProofs.v` | Signs in floating point: negating an operand negates a product or a quotient, and swapping the operands of a difference negates it, unless it is zero |
| `ExpProofs.v` | Bounds of exp and ln by truncated series, in integers |

**Theorems of MANIFEST.json with their examples**

| file | contents |
|---|---|
| `PropMatrix.v` | C10-C16: Matrix33 |
| `PropColor.v` | C01-C09: colours, channels, quantisation |
| `PropAdapt.v` | C17-C22: xyY, XYZ and chromatic adaptation |
| `PropSpace.v` | C23-C24: colour spaces |
| `PropTransform.v` | C25-C29: transform.rs |
| `PropTransfer.v` | C30-C36: transfer functions, exact arithmetic |
| `PropLab.v` | C37-C41: Lab conversions and colour differences, exact arithmetic |
| `PropIllum.v` | C42-C43: daylight chromaticity from colour temperature |
| `PropSpd.v` | C44-C47: the fixed-shape spectrum of spd.rs |
| `PropShape.v` | C48-C50, C60, C62, C70, C71: building, trimming, scaling and comparing spectra |
| `PropSprague.v` | C51-C55: Sprague and linear interpolation |
| `PropAlign.v` | C56-C59: interpolate, extrapolate, align, and what shape() says afterwards |
| `PropWeights.v` | C63, C76: the E2022 weighting table and its E308 adjustment (vspd.rs 528-684) in exact arithmetic |
| `PropXyz.v` | C64-C68: tristimulus values and luminance of spectra, exact arithmetic |
| `PropDiffuser.v` | C64, C67: the perfect diffuser, and which spectra are interpolated before integrating |
| `PropTables.v` | C69, C75: the built-in tables and the reflectances built from them, exact arithmetic |
| `PropWhite.v` | C77: the tabulated illuminants have the tabulated white points, exact arithmetic on the literals |
| `PropFloat.v` | C72, C73, C74: rounding in matrix application, lerp, and narrowing to 32 bits |
| `PropGamut.v` | C78-C79: the primaries of the built-in spaces, and which gamut lies inside which |
| `PropKahan.v` | C80: accuracy of the two fast spectrum-to-XYZ conversions of spd.rs in f32 |
| `PropHero.v` | C81: the wavelengths of hero wavelength sampling |
| `PropDe.v` | C83-C84: delta_E_2000 against the published CIEDE2000 formula and against delta_E_1976, exact arithmetic |
| `PropRound.v` | C85: how far the transfer functions are from undoing each other, exact arithmetic |
| `PropPixel.v` | C86: integer pixels survive the trip through XYZ in the code's own arithmetic |
| `PropCurve.v` | C87: integer pixels survive decoding to linear light and encoding again, in the code's own arithmetic |
| `PropLum.v` | C88-C89: luminance weights of the built-in spaces, physical XYZ for in-gamut colours, and the box Lab stays in |
| `PropSelf.v` | C90: converting an image to the colour space it is already in |
| `PropLabFloat.v` | C91, C92: Lab in the code's own arithmetic |
| `PropWork.v` | C93: stored pixels through an ACES working space and back |
| `PropExample.v` | C94: the image conversion examples |
| `PropConv.v` | C95: converting an image in floating point against converting it in exact arithmetic |
| `PropEstimate.v` | C96: the estimates of examples/hero_wavelength_sampling.rs, exact arithmetic |
| `PropInterp.v` | C97: the interpolations of interpolation.rs in floating point against exact arithmetic |
| `PropStab.v` | C98: how far interpolated values may leave the range of the samples |
| `PropXyzFloat.v` | C99: to_xyz in f64 against exact arithmetic |
| `PropXyzTables.v` | C99: to_xyz in f64 under the tabulated illuminants |
| `PropXyzTen.v` | C100: to_xyz of spectra every 10 nm in f64 against exact arithmetic |
| `PropChecker.v` | C100: to_xyz in f64 of spectra every 10 nm under the tabulated illuminants, and of the colour checker |
| `PropRef.v` | C101: the reference colours of the colour checker against what the library computes |
| `PropRefEnc.v` | C101, continued: the encoded references |
| `PropReadme.v` | C102: the spectral example of the documentation, for every patch of the colour checker |
| `PropLogc.v` | C103: the ALEXA LogC curve in floating point: code round trips, and images written in ALEXA wide gamut |
| `PropFast.v` | C104: the fast spectrum conversion of spd.rs is the long one of vspd.rs, in exact arithmetic and in f32 |
| `PropUplift.v` | C105: a colour made into a spectrum and seen under D65 is the colour again |
| `PropDelta.v` | C106: colour differences in floating point |
| `PropJump.v` | C107: how colour differences vary with the colours, exact arithmetic |
| `PropRefLog.v` | C101, continued: the encoded references of ALEXA Wide Gamut |
| `PropAlexa.v` | C108: images read from ALEXA wide gamut, in floating point against exact arithmetic |
| `PropDaylight.v` | C109: daylight chromaticities from a correlated colour temperature, in floating point |
| `PropXyy.v` | C110: chromaticity coordinates and tristimulus values, there and back in floating point |
| `PropGrey.v` | C111: greys stay grey: converting (k, k, k) between spaces acts on each channel as the two transfer functions alone |
| `PropApprox.v` | C112: approximate equality of colours and spectra; the bounds of colour types |
| `PropCat.v` | C113: chromatic adaptation in floating point |
| `PropInv.v` | C114: Matrix33::inverse in floating point |
| `PropBuild.v` | C115: colour spaces built from primaries in floating point |
| `PropNew.v` | C116: ColorSpaceRGB::new in floating point |
| `PropNit.v` | C117: spd_to_nit in f64 against exact arithmetic |
| `PropKeyed.v` | C118: the colour checker looked up by name |
| `PropTrip.v` | C119: linear colours in floating point through XYZ and back, and XYZ through RGB and back |
| `PropShow.v` | C120: printed values can be told apart |
| `PropAlexaSelf.v` | C121: converting an image in ALEXA wide gamut to ALEXA wide gamut |
| `PropLocal.v` | C122: an interpolated value depends on six samples around it |
| `PropRealign.v` | C123: align (vspd.rs) onto a grid the spectrum already has, in exact arithmetic |
| `PropStops.v` | C124: linear conversions in floating point and exposure in whole stops |
| `PropStopsLab.v` | C125: L*a*b* and chromaticities in floating point do not depend on exposure in whole stops |
| `PropStopsCat.v` | C126: chromatic adaptation in floating point depends on the two whites only up to a common power of two |
| `PropStopsSpd.v` | C127: the fast conversions of spd.rs in f32 and exposure in whole stops |
| `PropOdd.v` | C128: the linear conversions and the fast spectrum conversions are odd in floating point |
| `PropUp.v` | C129: order in floating point: brighter spectra and colours, AVX loop, scalar loop and linear conversion |

## Trusted base

* Coq 8.16.1's kernel. `coqchk` is run on the compiled modules.
* The axioms listed per theorem below. All come from the standard library:
  * a: `ClassicalDedekindReals.sig_forall_dec`
  * b: `ClassicalDedekindReals.sig_not_dec`
  * c: `Classical_Prop.classic`
  * d: `FunctionalExtensionality.functional_extensionality_dep`

  a, b and d come with the definition of the real numbers; c comes with Flocq and with
  facts about `exp`, `ln` and `Rpower`. No axiom is added by this development.
* The faithfulness of the transcription: the comments in the model give the lines.
* The literal tables, copied by script from the source text.
* That Rust's `f32`/`f64` operations `+ - * / sqrt fma round as` are the IEEE ones of Flocq, and
  that the compiler does not contract or reorder them (Rust does not).
* For `f32::max`/`min` on zeros of different sign, where Rust leaves the choice open, the model
  returns the first operand. No theorem depends on that sign.

## What is modelled

| source | modelled | not modelled |
|---|---|---|
| math.rs | `clamp`, `lerp`, `sqr`, all of `Matrix33` (indexing, transposition, determinant, both inverses, operators, conversion to f32) | one-line wrappers `sin`, `cos`, ... (the class operation itself is used) |
| rgb.rs | `RGBf` with all operators (`AddAssign` has the same right-hand sides as `Add` and shares its definition), `Sum`, `Zero`, `One`, `Bounded`, `ApproxEq`, indexing, `cast_slice`, `hmax`, `normalize`, `clamprgb`, all conversions to and from `RGBu8`, `RGBu16`, narrowing | how a float is printed (`Display` around it is in ShowModel.v); the `f16` and `RGBA` constructors |
| xyz.rs, chromaticity.rs | operators, `Zero`, `One`, `Bounded`, `ApproxEq`, `Sum`, indexing, `abs`, narrowing; xyY in both directions, `normalized`, `normalized_y` (`Bounded` and `ApproxEq` of XYZ in PropApprox.v); `Display` (ShowModel.v) | how a float is printed |
| chromatic_adaptation.rs | `bradford`, `von_kries`, `cat02` with their matrices | - |
| color_space_rgb.rs | all transfer functions, `ColorSpaceRGB::new` and `new_with_specified_matrices`, the matrix construction, all ten built-in spaces | the tests |
| transform.rs | all functions; the AVX plane conversion as index arithmetic over lanes, with the three planes of equal length | planes of different lengths (undefined behaviour in the source) |
| lab.rs | `xyz_to_lab`, `lab_to_xyz`, both colour differences | `Display`-like test helpers |
| illuminant.rs | white points, `cct`, the four tabulated illuminants | - |
| cmf.rs | `CMF`, `align`, the 1931 table | - |
| interpolation.rs | Sprague (coefficients, boundary extension, evaluation), constant extrapolation, linear interpolation | - |
| vspd.rs | shapes and their iterator, all constructors, `interpolate`, `extrapolate`, `align`, `trim`, equality, scaling, Lagrange coefficients, `linspace`, the E2022 and E308 tables, both integration paths, `to_xyz`, `ApproxEq` (PropApprox.v), `Display`, `Debug` (ShowModel.v) | how a float is printed |
| photometry.rs | `spd_to_nit` | - |
| spd.rs | construction, equality, product, both conversions to XYZ (AVX lanes as lists), the three weight tables, `Display`, `Debug` (ShowModel.v) | iterators, how a float is printed |
| uplifting.rs | `uplift_my`, `my_basis`, all tables | the tests |
| colorchecker.rs | the spectra; all tables with their keys (DataKeyed.v) and the lookup by name (CheckerModel.v); the conversions to the reference colours for the eight implemented spaces that the tests use (DataReference.v, DataLogc.v) | how the reference colours of spaces that the library does not define come about (ACES CC, RED, ProPhoto and others); the iteration order of hash maps |
| examples/ | hero_wavelength_sampling.rs (HeroModel.v), with the random numbers as an argument; the pixel code of convert.rs and convert_with_matrices.rs (ExampleModel.v) | reading and writing of PNG files; printing; everything else |

`unsafe` code is modelled at the level of "the same values in the same order" (`cast_slice`, SIMD
loads and stores); memory layout and alignment are not. Reading and writing past the end of a
buffer is outside the model.

## Properties and how they are proved

X = exact arithmetic, F = Flocq formats, G = every `RealOps` instance.

| id | subject | method |
|---|---|---|
| C01-C03 | RGB <-> integers | F. product and quotient as rounding on R; the error of one product is far below half a code, so the nearest integer is stable; no case sweep |
| C04 | `clamp`, `clamprgb` | F + G. case analysis on comparisons |
| C05 | `hmax`, `normalize` | F. x/x = 1 exactly; quotient of a smaller by a larger rounds to at most 1; computed counterexample |
| C06-C08 | indices, `cast_slice`, `Sum` | G by case analysis and induction; permutation in X |
| C09 | operators | G, X by field, F commutativity |
| C10-C12 | `Matrix33` | G for transposition, X by ring |
| C13-C14 | `inverse` | X. both branches; counterexamples for the affine branch and the missing absolute value |
| C15-C16 | `gj_inverse` | X. invariant of elementary row operations; exact description of the inverted matrices |
| C17-C18 | xyY | X field |
| C19 | CAT of equal whites | F/G: the equality test decides |
| C20-C22 | CATs | X. inverse of a concrete matrix, diagonal algebra; bound on the von Kries residual |
| C23-C26 | colour spaces, transforms | X. linear algebra; concrete tables by rational arithmetic |
| C27-C29 | slices | G. induction; exact set of indices the AVX loop converts |
| C30-C36 | transfer functions | X. `Rpower` algebra; break points compared through integer powers |
| C37-C38 | Lab | X. the piecewise cube root is a bijection |
| C39-C41 | colour differences | X. Euclidean distance; positive definiteness of the CIEDE2000 form |
| C42-C43 | `cct` | X polynomials in 1/T; F for NaN |
| C44-C47 | `spd.rs` | X. compensation is zero in exact arithmetic; lane sums re-associated |
| C48-C50 | `VSPD` constructors | G/X list reasoning |
| C51-C55 | interpolation | X. segment polynomials by field, index search by induction |
| C56-C60 | interpolate, extrapolate, align, trim | X with fuel; counterexamples on misaligned grids |
| C61-C64, C76 | Lagrange, weighting tables | X. the nested loops as a list of contributions, sums reordered |
| C65-C68 | `to_xyz`, `spd_to_nit` | X. linearity of every stage as a relation between runs |
| C69, C75, C77 | tables | integer computation on the literals, lifted to X |
| C70-C71 | scaling, equality | G / F |
| C72-C74 | rounding | F. error model of IEEE operations, monotone rounding |
| C78-C79 | primaries, gamuts | X. conversion matrices as integers over a common denominator, checked in Z |
| C80 | compensated and AVX sums | F. Kahan's invariant with explicit constants; error tree for the lanes |
| C81 | hero wavelengths | X and F by monotone rounding |
| C82 | colour equality | F |
| C83-C84 | CIEDE2000 | X. mean and difference of hue on the circle; law of cosines |
| C85 | transfer round trips, all inputs | X. fractional powers compared through integer powers |
| C86 | pixels through XYZ | F. one error bound for any pair of matrices; the float matrices of all spaces and whites checked in integers |
| C87 | pixels through decode and encode | F. relative errors through powers; one bound for both two-piece curves and one for pure powers |
| C88 | luminance weights, physical colours | X. entries of the matrices compared with the published weights |
| C89 | box containing Lab of object colours | X. monotonicity of the CIE f |
| C90 | image converted to its own space | F. distance of the float matrix from the identity computed in integers, carried through the steep part of each curve |
| C91 | accuracy of the Lab conversions | F. forward error analysis; Lipschitz bounds of the CIE f and its inverse |
| C92 | integer pixels through Lab | F. C91 composed with the float matrices, whose residue is computed in integers |
| C93 | stored image through a float working space | F. C90's channel analysis, with the residue of two different float matrices computed in integers |
| C94 | the image conversion examples | F and X. list induction three at a time; the two matrix routes are equal by cat_compose |
| C95 | float image conversion against the exact one | F and X. the 81 exact matrices as integers over common denominators, compared with the float ones entry by entry; error of each curve and its slope near black |
| C96 | hero wavelength sampling | X. the four rotated strata are a permutation of N equal cells, so the sum is a Riemann sum of a Lipschitz function; straight-line interpolants are Lipschitz by gluing, Sprague ones by their continuous derivative; y-bar times D65 integrated exactly, as integer polynomials on 420 cells |
| C97 | interpolation in floating point | F and X. a relation carrying magnitude and error relative to the largest value, with one lemma per operation, through the five coefficients and the boundary extension; the exact run characterised for any strictly increasing wavelengths |
| C98 | overshoot of the interpolation | X and F. every piece is a combination of six neighbouring samples with weights of known sign; sum of absolute weights bounded by 89/64 with Bernstein coefficients, by pieces |
| C99 | XYZ in floating point | F and X. errors through alignment, interpolation, products and sums by C97 and C98; wavelengths are whole numbers and so exact in f64; the normaliser is bounded below from the tables by exact integer sums |
| C100 | XYZ of 10 nm spectra in floating point | F and X. the weighting table as a list of contributions to 43 weights; magnitude and error of each weight grow with the number of contributions, 1537 in all; the Lagrange coefficients in f64 are computed by the kernel; trimming keeps the same samples on both sides because wavelengths are whole numbers |
| C101 | reference tables of the colour checker | X. weights of ASTM E308 as integers over one denominator, matrices as integers, checked by the kernel on integer equations; encoded tables by comparing integer powers on both sides of the root (PowProofs), the LogC table by the truncated series of exp in fixed point (ExpProofs) |
| C102 | example of the documentation | X and F. C100 for the XYZ, an entrywise check of the f64 matrix, C93's bound on the encoder, and a kernel check that every code is a hundredth away from the rounding boundary |
| C103 | ALEXA LogC in floating point | F and X. Lipschitz bounds on both pieces and a bound on the jump at the join over the reals, rounding error of each piece with both sides of the comparison covered near the join; matrices checked entrywise by the kernel (as C95) |
| C104 | fast SPD conversion is the ASTM one | X and F. Integer form of the folded weighting table against the three tables entrywise by the kernel; compensated sum bounded step by step to exclude overflow, then C80 |
| C105 | uplifted colours come back | X and F. Centre values of the three basis spectra under D65 checked in integers by the kernel, linear in the colour; f64 through C99 and the rounding of the three-term sum |
| C106 | colour differences in f32 and f64 | F. Swapping the arguments negates every odd quantity (OppProofs: opposite or zero), so products and squares are equal bit by bit; ranges of every intermediate for a colour with itself; rounding of the sum of squares through ErrProofs |
| C107 | steadiness of colour differences | X. Triangle inequality; closed form of CIEDE2000 on the four corners of a rectangle around the grey axis, whose mean hues are 90 and 270 degrees |
| C108 | images from ALEXA wide gamut | F and X. Decoding error of C103 relative to the argument of the logarithm, no code of 1 to 16 bits lies near the join (integers, kernel); matrix rows bounded for inputs up to 58 in magnitude; values beyond 5 encode to 0 or to full scale on both sides, nearer ones as C95 |
| C109 | daylight locus in floating point | F. relative errors of the powers of T and of the quotients, absolute errors of the sums; lower bounds on the slopes of both cubics |
| C110 | xyY and XYZ in floating point | F. a relation carrying a scale and an error relative to it, with one lemma per operation; the rounded sum cancels between x and y on the way back |
| C111 | greys stay grey | X and F. row sums of the 81 exact matrices checked in integers by the kernel; how far each encoder moves when its argument is scaled by a factor near one, across the join as well; C95 for the floating-point part |
| C112 | approximate equality, bounds | G by induction over the samples; F for the bounds, from the largest finite value of the format |
| C113 | chromatic adaptation in floating point | F. pairs (error, size) carried through every operation, evaluated in rational arithmetic by the kernel for the three methods; computed inverses compared entrywise with the exact ones |
| C114 | inverse() in floating point | F. rounding errors of cofactors, determinant and quotients for a symbolic bound m on the entries and d on the determinant; the overflow test of the code passes because the determinant is large against the smallest normal number |
| C115 | a colour space built from primaries in floating point | X for the exact matrix as three scaled cross products; F for the errors of cofactors, weights and quotients |
| C116 | ColorSpaceRGB::new in floating point | F. C115 and C114 composed; the determinant of the computed matrix against the exact one |
| C117 | luminance of a spectrum in floating point | F and X. alignment by C97/C98, products, sum and quotient; the aligned table is the table itself at whole wavelengths |
| C118 | the colour checker by name | G for the maps: keys compared with NAMES, a map built by insertion returns the last value inserted; X by C101 |
| C119 | linear colours in floating point through XYZ and back | F. errors of scaling and of two matrices for a symbolic size M; the product of the two computed matrices against the identity, in integers, by the kernel |
| C120 | printed values | G. a text free of separators is determined by any text it is followed by a separator in; induction over the samples |
| C121 | ALEXA wide gamut to itself | F. the computed matrix is near the identity (integers, kernel); one channel moved by the others is encoded again, through the join below 1 and relatively above; the same bounds from the other side refute eleven bits |
| C122 | interpolation is local | G. which entries of the padded list a segment reads, and which samples decide the padding; X for the position of the segment |
| C123 | aligning to a grid the spectrum has | X. no sample is held outside, and the interpolant passes through the samples; C58 for the first alignment |
| C124 | exposure in whole stops | F. rounding commutes with powers of two away from subnormal numbers; products and cancelling sums stay multiples of a fixed power of two; the entries of the matrices by the kernel |
| C125 | L*a*b* and chromaticity against exposure | F. the quotient of two floats scaled by one power of two is the same float, special values included; sums as in C124 |
| C126 | adaptation against exposure of both whites | F. C124 for the cone responses, C125 for their quotients; comparison of equal whites scales too |
| C127 | fast spectrum conversions against exposure | F. sums of floats scale exactly at any size, products above the subnormal numbers; backward finiteness through compensated and lane-wise sums |
| C128 | conversions of negated colours and spectra | F. every operation preserves the relation 'opposite', with overflow, infinities and NaN; signed zeros excepted |
| C129 | order of spectra and colours | F. monotone rounding through sums and lanes with overflow; matrices computed and their signs checked; counterexamples for the compensated sum and for Z |
Theorems whose name ends in `_partial` cover part of their property and say which; names ending in
`_refuted` exhibit an input for which the property is false of the code.

`seeded/LOG.jsonl` records edits of the model (realistic bugs) and the theorems that stopped
proving. For each edit only the files that the listed properties need were
rebuilt, so `theorems_failed` names the failures among those; other theorems may fail too. A listed
property without a failing theorem is explained in `note`.

## Assumptions per theorem

Letters as in "Trusted base"; "none" means closed under the global context.

| property | status | theorems (axioms) |
|---|---|---|
| C01 | proved | `C01_quantise_total_saturating_nearest` (abcd) |
| C02 | proved | `C02_quantise_monotone` (abcd) |
| C03 | proved | `C03_integer_roundtrip` (abcd), `C03_integer_roundtrip_mixed` (abcd), `C03_f32` (abcd), `C03_f64` (abcd) |
| C04 | proved | `C04_clamp` (abcd), `C04_clamprgb` (abcd) |
| C05 | partial | `C05_normalize_partial` (abcd), `C05_normalize_refuted_black` (none), `C05_normalize_refuted` (abcd) |
| C06 | proved | `C06_rgb_index` (none), `C06_xyz_index` (none), `C06_matrix_index` (none) |
| C07 | proved | `C07_cast_slice` (none) |
| C08 | proved | `C08_sum_channels` (none), `C08_sum_exact` (abcd) |
| C09 | proved | `C09_bitwise_commutative` (abcd), `C09_vector_space` (abcd), `C09_vector_space_xyz` (abcd), `C09_division` (abcd) |
| C10 | proved | `C10_transposed_entries` (none), `C10_transposed_involutive` (none), `C10_transposed_mul` (abcd) |
| C100 | proved | `C100_to_xyz` (abcd), `C100_builtin` (abcd), `C100_checker` (abcd) |
| C101 | proved | `C101_xyz` (abcd), `C101_linear` (abcd), `C101_aces` (abcd), `C101_encoded` (abcd), `C101_encoded_logc` (abcd) |
| C102 | proved | `C102_exact` (abcd), `C102_float` (abcd) |
| C103 | proved | `C103_codes_f32` (abcd), `C103_codes_f64` (abcd), `C103_image_f32` (abcd), `C103_image_f64` (abcd) |
| C104 | proved | `C104_exact` (abcd), `C104_float` (abcd), `C104_patches` (abcd) |
| C105 | proved | `C105_linear` (abcd), `C105_float` (abcd), `C105_pixels_exact` (abcd), `C105_pixels_float` (abcd) |
| C106 | proved | `C106_symmetric_f32` (abcd), `C106_symmetric_f64` (abcd), `C106_self_f32` (abcd), `C106_self_f64` (abcd), `C106_accurate_f32` (abcd), `C106_accurate_f64` (abcd), `C106_positive_refuted` (abcd) |
| C107 | proved | `C107_steady_1976` (abcd), `C107_small_2000` (abcd), `C107_jump_2000` (abcd) |
| C108 | proved | `C108_whole_f32` (abcd), `C108_dim_f32` (abcd), `C108_whole_f64` (abcd) |
| C109 | proved | `C109_daylight_f32` (abcd), `C109_daylight_f64` (abcd) |
| C11 | proved | `C11_determinant_leibniz` (abcd), `C11_determinant_laws` (abcd) |
| C110 | proved | `C110_xyY_XYZ_xyY_f32` (abcd), `C110_xyY_XYZ_xyY_f64` (abcd), `C110_XYZ_xyY_XYZ_f32` (abcd), `C110_XYZ_xyY_XYZ_f64` (abcd) |
| C111 | proved | `C111_greys_stay_grey` (abcd), `C111_greys_f32` (abcd), `C111_greys_f64` (abcd), `C111_all_depths_refuted` (abcd) |
| C112 | proved | `C112_componentwise` (none), `C112_relation` (none), `C112_bounds_f32` (abcd), `C112_bounds_f64` (abcd) |
| C113 | proved | `C113_bradford_f32` (abcd), `C113_bradford_f64` (abcd), `C113_cat02_f32` (abcd), `C113_cat02_f64` (abcd), `C113_von_kries_f32` (abcd), `C113_von_kries_f64` (abcd) |
| C114 | proved | `C114_inverse_f32` (abcd), `C114_inverse_f64` (abcd), `C114_small_determinant_refuted` (abcd) |
| C115 | proved | `C115_exact` (abcd), `C115_build_f32` (abcd), `C115_build_f64` (abcd) |
| C116 | proved | `C116_new_f32` (abcd), `C116_new_f64` (abcd) |
| C117 | proved | `C117_nit` (abcd), `C117_builtin` (abcd) |
| C118 | proved | `C118_lookup` (none), `C118_by_name` (abcd) |
| C119 | proved | `C119_f32` (abcd), `C119_f64` (abcd) |
| C12 | proved | `C12_mul_composes` (abcd), `C12_mul_monoid` (abcd), `C12_linear` (abcd) |
| C120 | proved | `C120_distinct` (none), `C120_integer` (none) |
| C121 | proved | `C121_kept_f32` (abcd), `C121_kept_f64` (abcd), `C121_eleven_bits_refuted` (abcd) |
| C122 | proved | `C122_six` (none), `C122_window` (abcd), `C122_one_sample` (abcd) |
| C123 | proved | `C123_subsample` (abcd), `C123_own_shape` (abcd), `C123_again` (abcd) |
| C124 | proved | `C124_f32` (abcd), `C124_f64` (abcd), `C124_tiny_refuted` (abcd) |
| C125 | proved | `C125_lab_f32` (abcd), `C125_lab_f64` (abcd), `C125_chromaticity_f32` (abcd), `C125_chromaticity_f64` (abcd) |
| C126 | proved | `C126_f32` (abcd), `C126_f64` (abcd) |
| C127 | proved | `C127_scalar` (abcd), `C127_avx` (abcd), `C127_dark_refuted` (abcd) |
| C128 | proved | `C128_linear_f32` (abcd), `C128_linear_f64` (abcd), `C128_fast` (abcd), `C128_black_refuted` (abcd) |
| C129 | proved | `C129_avx` (abcd), `C129_linear_f32` (abcd), `C129_linear_f64` (abcd), `C129_scalar_refuted` (abcd), `C129_z_refuted` (abcd) |
| C13 | partial | `C13_inverse_sound_partial` (abcd), `C13_inverse_sound_refuted` (abcd), `C13_inverse_sound_refuted_sign` (abcd) |
| C14 | partial | `C14_inverse_complete_partial` (abcd), `C14_inverse_singular_refuted` (abcd), `C14_inverse_affine_answer` (abcd) |
| C15 | proved | `C15_gj_inverse_sound` (abcd) |
| C16 | partial | `C16_gj_inverse_complete_partial` (abcd), `C16_gj_inverse_complete_refuted` (abcd), `C16_gj_inverse_complete_refuted_division` (abcd), `C16_gj_inverse_dominant` (abcd) |
| C17 | proved | `C17_xyY_XYZ_xyY` (abcd), `C17_XYZ_xyY_XYZ` (abcd), `C17_black` (abcd) |
| C18 | proved | `C18_normalized` (abcd) |
| C19 | proved | `C19_self_adaptation` (abcd) |
| C20 | proved | `C20_white_to_white` (abcd), `C20_no_panic` (abcd) |
| C21 | proved | `C21_compose_invert` (abcd) |
| C22 | partial | `C22_von_kries_partial` (abcd), `C22_von_kries_refuted` (abcd) |
| C23 | partial | `C23_xyz_to_rgb_from_primaries` (abcd), `C23_new_partial` (abcd), `C23_new_refuted` (abcd) |
| C24 | proved | `C24_builtin_from_primaries` (abcd), `C24_builtin_specified` (abcd) |
| C25 | partial | `C25_groupoid_partial` (abcd), `C25_groupoid_refuted` (abcd) |
| C26 | partial | `C26_rgb_xyz_roundtrip_partial` (abcd), `C26_rgb_xyz_roundtrip_refuted` (abcd) |
| C27 | proved | `C27_slice_is_pointwise` (none) |
| C28 | proved | `C28_rgb_to_rgb_prefix` (none) |
| C29 | partial | `C29_avx_planes_exact_coverage` (none), `C29_avx_planes_partial` (abcd), `C29_avx_planes_iff` (abcd), `C29_avx_planes_refuted` (abcd) |
| C30 | partial | `C30_srgb_encode_decode` (abcd), `C30_srgb_decode_encode_partial` (abcd), `C30_srgb_decode_encode_refuted` (abcd) |
| C31 | partial | `C31_bt709_decode_encode` (abcd), `C31_bt709_encode_decode_partial` (abcd), `C31_bt709_encode_decode_refuted` (abcd) |
| C32 | partial | `C32_bt2020_decode_encode` (abcd), `C32_bt2020_encode_decode_partial` (abcd), `C32_bt2020_encode_decode_refuted` (abcd) |
| C33 | partial | `C33_alexa_decode_encode_partial` (abcd), `C33_alexa_encode_decode_partial` (abcd), `C33_alexa_refuted` (abcd) |
| C34 | proved | `C34_power_law_roundtrip` (abcd), `C34_linear_identity` (none) |
| C35 | partial | `C35_monotone_partial` (abcd), `C35_monotone_refuted` (abcd), `C35_unit_range` (abcd) |
| C36 | proved | `C36_codes_survive` (abcd), `C36_bt709_16bit_refuted` (abcd), `C36_space_curves_paired` (abcd) |
| C37 | proved | `C37_lab_roundtrip` (abcd), `C37_zero_white` (abcd) |
| C38 | proved | `C38_lab_anchors` (abcd) |
| C39 | proved | `C39_delta76_metric` (abcd), `C39_delta76_norm` (abcd) |
| C40 | proved | `C40_delta2000_symmetric` (abcd) |
| C41 | proved | `C41_delta2000_defined` (abcd), `C41_delta2000_greys` (abcd) |
| C42 | partial | `C42_cct_partial` (abcd), `C42_cct_float_domain` (abcd), `C42_cct_nan_refuted` (abcd) |
| C43 | proved | `C43_cct_strictly_decreasing` (abcd) |
| C44 | proved | `C44_fast_conversion_is_weighted_sum` (abcd), `C44_fast_conversion_linear` (abcd), `C44_spike` (abcd) |
| C45 | proved | `C45_avx_equals_scalar` (abcd) |
| C46 | partial | `C46_nonnegative_partial` (abcd), `C46_nonnegative_refuted` (abcd), `C46_perfect_reflector` (abcd) |
| C47 | proved | `C47_spd_samplewise` (none) |
| C48 | partial | `C48_new_shape_partial` (none), `C48_last_gap_unchecked_refuted` (abcd), `C48_grid_uniform` (abcd) |
| C49 | proved | `C49_iter_grid` (abcd), `C49_iter_reversed` (abcd), `C49_iter_varying` (none) |
| C50 | proved | `C50_constant` (abcd), `C50_from_values` (abcd), `C50_varying` (abcd) |
| C51 | proved | `C51_through_samples` (abcd) |
| C52 | proved | `C52_domain` (abcd), `C52_nan` (abcd), `C52_release_refuted` (abcd) |
| C53 | proved | `C53_twice_differentiable` (abcd) |
| C54 | proved | `C54_linear` (abcd), `C54_quartic` (abcd), `C54_short_spectrum_refuted` (abcd) |
| C55 | proved | `C55_linear_through_samples` (abcd), `C55_linear_between_neighbours` (abcd), `C55_linear_total` (abcd) |
| C56 | proved | `C56_interpolate` (abcd), `C56_disjoint_panics` (abcd) |
| C57 | proved | `C57_extrapolate` (abcd), `C57_needs_positive_interval` (abcd), `C57_varying_panics` (none) |
| C58 | partial | `C58_align_on_grid_partial` (abcd), `C58_off_grid_refuted` (abcd) |
| C59 | partial | `C59_shape_describes_partial` (abcd), `C59_extrapolate_refuted` (abcd) |
| C60 | proved | `C60_trim_is_filter` (abcd), `C60_trim_panics` (abcd) |
| C61 | proved | `C61_lagrange_rows` (abcd), `C61_small_intervals` (abcd) |
| C62 | proved | `C62_linspace` (abcd), `C62_linspace_small` (abcd) |
| C63 | proved | `C63_weights_conserve` (abcd), `C63_trim_conserves` (abcd), `C63_short_table_panics` (abcd), `C63_needs_1nm` (abcd) |
| C64 | partial | `C64_perfect_diffuser_partial` (abcd), `C64_offgrid_refuted` (abcd) |
| C65 | proved | `C65_to_xyz_linear` (abcd), `C65_to_xyz_scales` (abcd) |
| C66 | proved | `C66_illuminant_power` (abcd), `C66_illuminant_operators` (abcd) |
| C67 | partial | `C67_interpolates_partial` (abcd), `C67_truncated_interval_refuted` (abcd) |
| C68 | partial | `C68_nit_linear` (abcd), `C68_nit_defined_partial` (abcd), `C68_varying_never_returns` (abcd), `C68_defined_refuted` (abcd) |
| C69 | proved | `C69_uplift_samples` (abcd), `C69_uplift_physical` (abcd), `C69_uplift_white` (abcd), `C69_uplift_additive` (abcd) |
| C70 | proved | `C70_scaling_keeps_wavelengths` (none), `C70_scaling_any` (none), `C70_shape_kept_refuted` (abcd) |
| C71 | proved | `C71_equality` (abcd) |
| C72 | proved | `C72_matrix_rounding` (abcd) |
| C73 | proved | `C73_lerp_ends` (abcd), `C73_lerp_rounding` (abcd), `C73_lerp_between` (abcd) |
| C74 | proved | `C74_narrow_monotone` (abcd), `C74_narrow_exact` (abcd), `C74_narrow_nearest` (abcd) |
| C75 | proved | `C75_illuminants_and_cmf` (abcd), `C75_colour_checker` (abcd), `C75_uplift_tables` (abcd), `C75_uplift_ranges` (ad), `C75_smits_negative` (ad) |
| C76 | proved | `C76_quadratic_spectra_exact` (abcd) |
| C77 | proved | `C77_white_points` (abcd), `C77_D60_refuted` (abcd) |
| C78 | proved | `C78_primaries_exact` (abcd), `C78_primaries_specified` (abcd) |
| C79 | proved | `C79_gamut_inclusions` (abcd), `C79_gamut_exclusions` (abcd) |
| C80 | proved | `C80_scalar_accurate` (abcd), `C80_avx_accurate` (abcd) |
| C81 | proved | `C81_hero_exact` (abcd), `C81_hero_f64` (abcd) |
| C82 | proved | `C82_colour_equality` (abcd) |
| C83 | proved | `C83_ciede2000` (abcd), `C83_direction` (abcd) |
| C84 | proved | `C84_bounded_by_1976` (abcd), `C84_triangle_fails` (abcd) |
| C85 | proved | `C85_curves_nearly_inverse` (abcd), `C85_bound_is_needed` (abcd), `C85_spaces_nearly_lossless` (abcd) |
| C86 | proved | `C86_pixels_f32` (abcd), `C86_pixels_f64` (abcd), `C86_deep_srgb_refuted` (abcd), `C86_deep_adobe_refuted` (abcd) |
| C87 | proved | `C87_curves_f32` (abcd), `C87_curves_f64` (abcd), `C87_twelve_bits_refuted` (abcd) |
| C88 | proved | `C88_luminance_exact` (abcd), `C88_luminance_specified` (abcd) |
| C89 | proved | `C89_lab_box` (abcd), `C89_lab_box_tight` (abcd), `C89_in_gamut_lab` (abcd) |
| C90 | proved | `C90_own_space_f32` (abcd), `C90_own_space_f64` (abcd), `C90_adobe_refuted` (abcd), `C90_deep_p3_refuted` (abcd) |
| C91 | proved | `C91_lab_f32` (abcd), `C91_lab_f64` (abcd), `C91_exact_refuted` (abcd) |
| C92 | proved | `C92_light_f32` (abcd), `C92_light_f64` (abcd), `C92_stored_f32` (abcd), `C92_stored_f64` (abcd) |
| C93 | proved | `C93_work_f32` (abcd), `C93_work_f64` (abcd) |
| C94 | proved | `C94_convert_f32` (abcd), `C94_pixel_f32` (abcd), `C94_convert_with_matrices_f32` (abcd), `C94_examples_agree` (abcd) |
| C95 | proved | `C95_float_image_f32` (abcd), `C95_float_image_f64` (abcd), `C95_deep_p3_refuted` (abcd) |
| C96 | proved | `C96_estimate` (abcd), `C96_reflectances` (abcd), `C96_program` (abcd), `C96_white_refuted` (abcd) |
| C97 | proved | `C97_sprague` (abcd), `C97_linear` (abcd), `C97_powi` (abcd), `C97_last_refuted` (abcd) |
| C98 | proved | `C98_range` (abcd), `C98_perturbation` (abcd), `C98_sharp` (abcd), `C98_align` (abcd), `C98_float` (abcd) |
| C99 | proved | `C99_to_xyz` (abcd), `C99_varying` (abcd), `C99_builtin` (abcd) |
