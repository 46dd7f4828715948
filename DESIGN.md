# A formal model of ColorSystem (nikq/ColorSystem) in Rocq

The library is one header, `/repo/include/colorsystem.hpp` (`hpp` below). All of its
code is modelled; `test/` and `ext/` are not.

## Method

**One transcription, two semantics.** Every numeric function is transcribed once as a
Gallina function over an arbitrary record of operations `Num` (file `Num.v`: C `float`
and `double` arithmetic, comparisons, casts, libm). The record has two instances:

| instance | values | what a theorem about it says |
|---|---|---|
| `RN` (`NumR.v`) | `option R` | the code in exact real arithmetic; `None` = no finite value (division by zero, log of a non-positive number, ...) and compares false with everything |
| `FN lm` (`NumF.v`) | IEEE binary32/binary64 (Flocq `BinarySingleNaN`), round to nearest even, NaN, infinities, signed zeros | the code in floating point; libm functions other than `sqrtf`/`fabsf` are those of an arbitrary record `lm`, so nothing is assumed about them |

Theorems stated "for every `N : Num`" hold bit for bit in any arithmetic.

**Outcomes.** `outcome A := Ret a | UB | Abort | Timeout`. Undefined behaviour
(out-of-range indexing, float-to-int overflow, integer division by zero, signed
overflow) is `UB`, a failed `assert` is `Abort`. Unbounded recursion takes fuel;
running out is `Timeout`, "the call returns r" is `terminates_with`, "the call never
returns" is `never_terminates` (`Timeout` for every fuel).

**Files** (all in `rocq/theories`):

- model: `Num MVec MTri MOtf MDelta MStream MSpectrum MDefault MSolver Tables TablesCES NumR NumF`,
  `MStreamNd` (streams without assertions), `MFma` (a third instance `EN lm` of `Num`, whose numbers are
  expressions, for fused multiply-add);
- `Spec*.v`: specifications written without the model's helpers;
- `P*.v`: proofs;
- `Props*.v`: the property theorems only, each closed by `exact lemma`, with
  `Print Assumptions` beneath and an `Example` showing its hypotheses are satisfiable.

## What is modelled and what is not

Modelled, function by function with line references in each file: `Vector3`, `Matrix3`,
`util::sqrtf`, `Tristimulus`, `Gamut`, `OTF`, `MemoryStream`,
`loadGamutFromICCProfileMemory`, `Spectrum`, `Observer`, the constant gamuts,
illuminants, spectra and reflectance tables, `GamutConvert`, `Bradford`, ICtCp, Oklab,
`Delta`, `Macbeth`, `SOLVER`, `Corrector`.

Not modelled, or simplified:

- overloads that only forward (`operator+`, static/member pairs) are represented by the
  function they forward to; names of gamuts; the debugging `printf`s of `XYZ_to_OKLAB`;
- in `RN`: rounding, overflow and signed zero are ignored, decimal literals have their
  exact value and the literal for pi is pi;
- in `FN`: `FLT_EVAL_METHOD = 0`, no FMA contraction (except in C152, C153, C162 and C164 to C169, where MFma.v models every
  choice of it), no `-ffast-math`; NaN payloads are
  ignored; `fabs`/`exp` of a float are the float overloads (`<math.h>` in C++);
  constexpr evaluation is assumed to round as at run time;
- in `MemoryStream`: `int` is 32 and `size_t` 64 bits; allocation never fails; shifting a
  negative int left has its two's-complement meaning; raw access through `ptr()` is
  modelled one byte at a time and `buffer()` as reading or replacing the vector
  (MStreamNd.v, which also has the class compiled without assertions); an address kept
  across a reallocation is not modelled; strings are shorter than 2^31 characters;
  floats are their bit patterns;
- in `SOLVER`: sizes are below 2^31 so the casts to `int` are exact.

## Trusted base

- the Coq 8.16.1 kernel (including `vm_compute`);
- the axioms listed by `Print Assumptions` below each theorem: none for theorems over
  every `Num` and over the stream; for real and floating-point theorems the standard
  library's axioms of the reals (`ClassicalDedekindReals.sig_forall_dec`,
  `ClassicalDedekindReals.sig_not_dec`), `FunctionalExtensionality.functional_extensionality_dep`
  and `Classical_Prop.classic` (via Flocq). No other axioms;
- Flocq 4.1.0 as a library of proved lemmas (no axioms of its own);
- the reading of the C++ text by the model, as cited. The code was never run.

## Properties: what is modelled and how each is proved

| id | model | plan |
|---|---|---|
| C01 | `M_mul`, `M_apply`, `M_add`, `M_row`, `M_col` | entry formula by computation for every `Num`; laws over `RN` by `ring` |
| C02 | `M_invert`, `M_det` | `RN`: field arithmetic, `None` iff det = 0. `FN`: computed det zero implies no finite entry |
| C03 | `M_det` | ring identities over `RN` |
| C04 | `M_index`, `M_row`, `M_col`, `M_transpose`, `M_fromArray` | case analysis, every `Num` |
| C05 | `M_crosstalk`, `M_crosstalkInvert` | field over `RN` |
| C06 | `M_apply` over `FN` | Flocq error bounds |
| C07 | `T_clip`, `T_positive`, `T_hasNegative` over `FN` | comparison lemmas incl. NaN |
| C08-C10 | `toYxy`, `fromYxy`, `toYuv`, `fromYuv` | field over `RN`, guards explicit |
| C11 | `toYuv` | refuted by a witness |
| C12 | `util_sqrtf` over `FN` | the iterates decrease to the float below the root; 2-cycles are excluded by an integrality argument on mantissas |
| C13 | `util_sqrtf` over `FN` | refuted by a witness |
| C14 | `mod360` | `RN`: induction; `FN`: error-free subtraction / absorption |
| C15-C17 | `toCIELAB`, `fromCIELAB` | real analysis; C17 refuted |
| C18, C19 | `toHSV`, `fromHSV` | sector by sector over `RN` |
| C20 | `fromCCT` | algebra with an exact root |
| C21 | `fromPlanckianLocus` | refuted at 3000 K; the parts that agree are proved |
| C22-C26 | `Gamut`, `GamutConvert`, `Bradford` | matrix algebra over `RN` |
| C27 | constants | refuted for illuminant B, proved for the others |
| C28-C36 | `OTF` | real analysis (`Rpower`, `ln`), C29, C31, C35 refuted |
| C37, C38 | Oklab, ICtCp | inverse of cube root and of PQ |
| C39-C41 | `Delta` | Cauchy-Schwarz; trigonometry; C41 against the published formula in `SpecDelta.v`, refuted |
| C42-C51, C67 | `MemoryStream` | invariant by induction on operation sequences, refinement to byte lists; C45, C49, C50, C67 refuted |
| C52-C54 | `fetch` | exact float arithmetic on small integers; C53 refuted in the first interval |
| C55-C58 | `Observer` | sums over lists |
| C59 | tables | checked entry by entry by the kernel (finite domain) |
| C60 | `planck` | monotonicity of `exp` |
| C61 | `S_dot` over `FN` | induction on the sum |
| C62, C63 | `svdcmp` | shape and `rv1[0] = 0` invariants through all loops; C63 refuted |
| C64 | `svbksb` | finite sums over the reals |
| C65, C66 | `Corrector_solve`, `SOLVER_solve` | list algebra |
| C68-C70 | `svdcmp`, `SOLVER_solve`, `Corrector_solve` | orthogonal transformations tracked through the loops (`RSvd.v`, `PSvd*.v`); refuted by a singular matrix evaluated in binary32, proved for one or two columns and for orthogonal columns |
| C71-C74 | scalar division, dot, extrema | field over `RN`, error bounds over `FN`; C72, C74 refuted |
| C75 | `toHSV_atan` | polar angle over `RN` |
| C76 | `fromCCT` over `FN` | termination of `util_sqrtf` for every float |
| C77, C78 | ICC loader, `makeGamut` | computation; C77 refuted |
| C79-C81 | stream: `feof`, pointers, `init` | induction over reads (`drain`); C81 refuted |
| C82, C83 | CIELAB at the default white and in binary32 | C82 refuted; exact quotient x/x over `FN` |
| C84, C85 | spectrum constructor, `Observer_xyz` | interpolation lemmas; C84 refuted in the first interval |
| C86, C87 | predefined gamuts, D65 table | exact rational evaluation in the kernel, linear in the quantified colour |
| C88, C89 | integration | monotone rounding, induction on the 400 samples |
| C90 | ICtCp | perturbation of the PQ curve; refuted for a vanishing cone |
| C91-C94 | HSV, Yxy, Euclidean differences over `FN` | Flocq error analysis; HSV by sectors, with hues rounded over a boundary treated apart |
| C95, C96 | predefined gamuts over `FN` | matrices evaluated to dyadic integers and checked by an integer criterion proved sound for all colours |
| C97 | OTF functions over `FN`, any library | exact rounding analysis of the library-free segments |
| C98–C100 | OTF functions over `FN` against `RN` | error calculus `near`/`rel` over a library satisfying `accurate`; `accurate_exists` by finite choice |
| C101 | `toCIELAB`, `fromCIELAB` over `FN` against `RN` | same calculus plus perturbation bounds of the exact curves |
| C102 | `fromSpectrum`, `G_fromXYZ_t` over `RN` with the built-in tables | a convexity argument reduces the claim to 400 wavelengths per observer, checked in integers |
| C103 | `GamutConvert`, `M_apply` over `RN` and `FN` | sign of the matrix entries; vm_compute on the 100 pairs |
| C104 | `G_toXYZ_t` over `RN` and `FN` | sign of the second matrix row |
| C105 | `XYZ_to_OKLAB` over `RN` | cube-root bounds; SpecOklab.v |
| C106 | `planck` over `RN` | exponential inequalities; SpecPlanck.v |
| C107 | `fromCT`, `fromPlanckianLocus` over `RN` | verified positivity test for integer polynomials on intervals (PPoly.v) |
| C108 | `fromCT`, `fromPlanckianLocus` over `RN` | as C107 |
| C109 | `sRGB_to_Y`, `Y_to_sRGB`, ... over `FN lm` | error bounds of C98-C101 and Lipschitz bounds of the encoders |
| C110 | `Y_to_sRGB` ... over `RN` | closed forms of POtf.v/POtf2.v rewritten into SpecOtf.v |
| C111 | `toHSV`, `fromHSV` over `RN` | sector by sector against the single-formula hexcone of SpecHsv.v |
| C112 | `XYZ_to_ICtCp`, `Rec2020` over `RN` | entrywise relative bound of the cone matrices; logarithmic slope of the PQ curve at most 0.1103 (polynomial positivity) |
| C113 | MOtf on FN lm, accurate lm | near/dnear error algebra (PNearF, F64, PSlogF) |
| C114 | MTri.fromCT on FN lm | horner_step, near_narrow (F64, PBlackF) |
| C115 | MDelta.Delta_E00 on RN | chroma_hue identity (dC'^2 + dH'^2 = da'^2 + db^2), weights >= 1, quadratic form bounded |
| C116 | MDelta.Delta_E00 on FN lm | interval arithmetic with monotone rounding (PIvF); the cross term is dominated either because its factor is at most 1 (chroma below 16) or because the chroma term is 0 or at least 2^-39 |
| C117 | MTri.fromPlanckianLocus on FN lm and RN | relative error of T^2, T^3, absolute error of the sums, Lipschitz bound of the y cubic, generic lemma for X = xY/y and Z |
| C118 | MTri.GamutConvert, M_apply on FN lm and RN | exact rational matrices for the ten gamuts, checked entry by entry against the evaluated binary32 matrices, then the row error bound (PGamF3) |
| C119 | MTri.Bradford on FN lm and RN | rows with a bound on the sum of entry errors, closed under matrix product; quotient of cone responses (PBradF) |
| C120 | MDelta.XYZ_to_OKLAB, OKLAB_to_XYZ on FN lm | checked inverse pairs (chk_ok), cube of a perturbed cube root, row perturbation (POkF) |
| C121 | MTri.toYuv, fromYuv, YxyToYuv, YuvToYxy on FN lm | mixed relative-absolute error calculus `ap` (PYuvF) |
| C122 | MVec.M_det, M_invert on FN lm | running error bound of the six products, reciprocal, cofactor products (PInvF) |
| C123 | MOtf.toScene/toScreen ST2084 on FN lm | power stage, convexity bound for the two cancellations, final power (PPqF) |
| C124 | MOtf, MTri, PImg | error of the linear round trip (C95, C118, C92) through the Lipschitz bound of the sRGB encoder |
| C125 | MOtf, MTri, PImg2 | C101, C93 and C121 round trips at XYZ, perturbation of the inverse matrix, Lipschitz bound of the sRGB encoder |
| C126 | MOtf, MDelta, PImg3 | error in the cone responses (C120), absolute row sums of the cone-to-RGB matrix computed exactly, Lipschitz bound of the sRGB encoder |
| C127 | MSpectrum, PObsF | dot product bound (C61), sum of a table, literals within half an ulp, division by the sum |
| C128 | MSpectrum, PBluer | two applications of the mean value theorem to (e^ax-1)/(e^bx-1) |
| C129 | MSpectrum, Tables, PBluer2, PBluer3 | weights that change sign once, ratio of two Planck spectra monotone, interval bounds at 800 K, Rayleigh-Jeans limit at infinity |
| C130 | MDefault, MTri, MSpectrum, PDefault | case analysis on binary32, nth_error |
| C131 | MTri, PGamut, PInside | barycentric coordinates are unique and are fromXYZ up to positive factors |
| C132 | MVec, MTri, MSpectrum, PStops | rounding commutes with scaling as long as no intermediate result is subnormal |
| C133 | MOtf, PSlogC | decoder error times the slope of the logarithm plus encoder error stays below half a code; the clip to [0,10] turns negative light into black |
| C134 | MOtf, PSlogC | linear pieces are inverse up to 1.4 ulp; in the logarithmic part the encoder returns 420 + log10 261.5 + (1023c-420)/261.5 |
| C135 | MTri, PHsvSym | case analysis on the largest channel |
| C136 | MTri, PHsvF, PHsvSym | error of the quotient, then one step of hue normalisation |
| C137 | MSpectrum, PFetchI | t-380 is a multiple of 2^-15, so it stays further below the next integer than two roundings can move it |
| C138 | MSpectrum, PResamp | integers below 2^24 make every step except one division exact; the quotient stays 1/d below the next integer |
| C139 | MSpectrum, F64, PPlanckF | relative error calculus in binary64 with wide margins, two roundings to binary32, then C127 |
| C140 | MTri, MOtf | exact row sums of the rational gamut matrices, C96/C118/C101 error bounds (PGrey.v) |
| C141 | MOtf | monotone operations chained between closed floats, rational enclosures at the switches (POrd.v, POrd2.v, POrd3.v) |
| C142 | MOtf | closed floats at the switch (POrd2.v, POrd3.v) |
| C143 | MTri | error calculus, direction of a perturbed vector, polynomial bounds on the chord (PCctF.v) |
| C144 | MStreamNd | refinement of the asserting build, case analysis on the cursor (PStreamNd.v) |
| C145 | MStreamNd | list lemmas on the buffer (PStreamNd.v) |
| C146 | MTri, MDelta | error propagation through the cone rows, PQ and the integer matrix (PIctF.v) |
| C147 | MSolver | rounding errors along the scaled formula (PPythF.v) |
| C148 | MSolver | case analysis on floats (PPythF.v) |
| C149 | MSolver | induction over the sums with running error bounds (PBksF.v) |
| C150 | MSpectrum, MTri, Tables, TablesCES | integer certificates for every surface with a margin of 1/1024, linearity for mixtures, rounding bounds for binary32 (PSurf.v) |
| C151 | MDelta | explicit jump across hue 180 deg; sequence continuity of each term, polar angles by quadrant (PE00d.v, PE00e.v) |
| C152 | MFma (an instance of Num whose numbers are expressions, and their possible values), MVec, MSpectrum, MTri | a running error analysis valid for fused and unfused operations, instantiated (PFma.v, PFma2.v, PFma3.v) |
| C153 | MFma, MVec, MTri, MOtf | the round-trip analysis of C95 and C124 with the fused dot product of C152 in place of the unfused one (PFma4.v) |
| C154 | MDelta, SpecDelta | error analysis stage by stage: chroma and G relative (PE00acc.v), hue angle (PE00acc2.v), mean hue, T, S_L (PE00acc3.v), R_T, S_C, S_H, hue difference (PE00acc4.v), quadratic form by Cauchy-Schwarz (PE00acc5.v), geometry of the hues (PE00acc6.v), assembly (PE00acc7.v), then C41 (PE00acc8.v) |
| C155 | MVec, NumF | mixing matrices nearly inverse to each other (PCross.v, with the round-trip lemma of PGamF.v) |
| C156 | MTri, NumF | movement of atan2 with its arguments (PHsvAF.v), library contract accurate_trig (PE00acc.v), C136 for saturation and value |
| C157 | MVec, MTri, MOtf, MDelta, MSpectrum, NumF | NaN absorbs in every arithmetic operation and fails every comparison, followed through each branch (PNan.v) |
| C158 | MTri, MOtf, NumF | evaluation of the comparisons with a NaN (PNan.v) |
| C159 | MTri, NumF | bound on the raw hue (C91), case analysis on infinities (PHsvT.v) |
| C160 | MSolver, NumF | back-substitution as sums of products (C149), threshold characterisation (C66), largest value survives (PBksNan.v) |
| C161 | MTri, NumF | hue normalisation (C14), range of the sector number (PHsvU.v) |
| C162 | MDelta, MFma, NumF | the possible values enumerated, one rounding step per square (PFma5.v) |
| C163 | MDelta, NumF | error bound (C94) and the exact triangle inequality (C39), computed counterexamples (PEuclM.v) |
| C164 | MDelta, MFma, NumF | each row is a three-term product, bounded for every choice (PFma2.v), then as C120 (PFma6.v) |
| C165 | MTri, MFma, NumF | expressions with one value only are followed through mod360; one rounding less per channel (PFma7.v) |
| C166 | MVec, MTri, MFma, NumF | case analysis on the last step of an evaluation; correctness of the fused operation in Flocq (PFma8.v) |
| C167 | MTri, MFma, NumF | running error analysis of the two denominators (PFma.v), then the quotient bounds of C121 (PFma9.v) |
| C168 | MTri, MFma, NumF | a fused operation satisfies the bound of the two operations it replaces; compared values have one value (PFma10.v); then the analysis of C101 (PLabF.v) |
| C169 | MOtf, MFma, NumF | the two sums of the rational function and the sum after the logarithm, fused or not, satisfy the bounds of C100 (PFma11.v) |

## Vocabulary of the statements

Each `Props` file explains the predicates it uses in its header or above the theorem. The
less obvious ones:

- `F32.v`: `fin x` (finite), `u` = 2^-24, `eta` = 2^-150; `PMatF.v`: `allV`, `allM`,
  `absdot`, `dotR`;
- `SpecMat.v`: matrices over R by index functions; `SpecDelta.v`: CIEDE2000 as published;
  `SpecStream.v`: a stream as a byte list with a cursor;
- `RLin.v`, `RSvd.v`: `orthonormal`, `is_svd`, `residual2`, `prod3`;
- `PSolver.v`: `shape`, `wp` (weakest precondition over `outcome`);
- `PMono.v`: `okS`, `belowS` (samples in range, pointwise below); `PICtCp.v`: `cones`;
- `PGamF.v`: `norm3`, `back`, `gams`; `PGamF2.v`: `near_app`.
- `PLibm.v`: `approx`, `accurate` (a hypothesis on the C library: within 4·2^-24 of the real function, relatively; proved satisfiable, not assumed); `PNearF.v`: `near`; `PRelF.v`: `rel`. `POkF.v`: `cbrt_ok`, the same for `cbrtf`, also proved satisfiable.
- `POrd.v`: `ordered` (a hypothesis on the C library: `powf`, `expf`, `logf`, `log10f` monotone; used by C141 and C142 only; proved satisfiable together with `accurate`, not assumed); `leF`, `leB`: finite and in order. `POrd3.v`: `leV`, `inV`, the same for triples.

## Validation of the model against the project's test suite

`Validation.v` evaluates every numeric expectation of `/repo/test` on the
binary32 model, with the executable library `exec_libm` of `ExecLibm.v` in place
of the C library.  These are tests of the transcription, not proofs, and no
property depends on them.  All expectations hold except the second one of
`test/oklab.cpp`, which fails in the model because of the sign of one
coefficient in the code (property C105).

## Mutation testing

`seeded/LOG.jsonl` has one line per wrong program: one edit of one definition in a scratch
copy, rebuilt with `make -k`. `first_failing_proofs` are the proofs in which the build was
observed to stop. `failed` lists the property theorems that depend on them; it is computed
from the dependency graph of the compiled files, since a file stops at its first error.
The graph is that of the current files, so `failed` may name a theorem added after the edit was tried.
So a theorem in `failed` was not itself rebuilt, and one that needs a stopped file only for
other lemmas is neither listed nor tested by that edit.  In two cases the build did not end
(`S_of_samples_default` with 401 samples; the last edit of `M_invert`): there the theorem was
refuted, or its lemma compiled, apart from the build, as the entry says.  Some edits of MFma.v
and all those against C167 were tried only on the files concerned, with the files before them cut down
or the edited definition shadowing the original, because the full build stops earlier or, for the last eight, without running it; their entries say so.
`tightened` names theorems strengthened or added because an edit went unnoticed.
