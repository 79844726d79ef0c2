# Formal model of PyWavelets

(Design written before the proofs; updated as the development grows.)

## Approach

* Arithmetic is exact: an abstract commutative ring `CRing` (Leibniz equality), instantiated at Z, Qc and pairs (complex). Rounding is modelled separately for the 1-D transforms (C100-C102).
* C kernels are modelled loop by loop in an error monad (`Ok`, `OOB` for an out-of-bounds access, `Fuel` for exhausted loop fuel, `Err c` for an error code/exception). Index arithmetic is over Z, so a negative index is an out-of-bounds access and not a truncated one.
* Specifications (`Spec*.v`) are written without reference to the model.
* Properties are restated in `Props*.v`, which contain only `Theorem … exact lemma. Qed.`, `Print Assumptions` and `Example`s.

## Plan per property

* **C01** Lengths.v models common.c; CConv.v models the kernels on a bounds-checked output buffer; theorem: run of the model of dwt_single yields two lists of that length.
* **C02** Spec `ext mode x : Z -> R` written independently (mod arithmetic). Loop-invariant proof that every phase of the C kernel model computes the sum.
* **C03** Same technique for the periodization kernel (fstep = 1, step = 2).
* **C04** The kernel model reads/writes through bounds-checked accessors and while loops run on fuel: result type has OOB and Fuel outcomes; theorem: result is Ok.
* **C05** Sum re-indexing from C02 + convolution identity; abstract commutative ring.
* **C06** Same with circular indexing.
* **C07** Corollary form of C05/C06 giving the extra sample.
* **C08** From the closed forms C02/C03 and idwt closed form.
* **C09** Model of idwt/idwt_single with option arguments.
* **C10** Model of downcoef loop vs iterated dwt.
* **C11** Closed form of upsampling_convolution_full; interior equality.
* **C12** Induction on the level.
* **C13** Induction on the level.
* **C14** Arithmetic on N with Z.log2.
* **C15** 2-adic valuation by strong induction.
* **C16** Loop invariants of the periodization kernel with fstep = 2^(level-1) dividing N.
* **C17** From C16.
* **C18** Induction on level, coset splitting.
* **C19** From closed forms and orthonormality in an ordered/commutative ring. swtn (EnergySwtNd): axis by axis, then level by level; spec `nd_energy`, `item_energy`.
* **C20** Model of the Python/Cython list handling.
* **C21** Model of ArrayInfo offset computation over memory as finite map address -> value.
* **C22** n-D arrays as shape + index function; commutation of linear operators on different axes.
* **C23** Induction on the axes list.
* **C24** Induction on level.
* **C25** Slices as boxes of Z intervals; n-D arrays as functions.
* **C26** List concatenation/splitting.
* **C27** Shape recurrences.
* **C28** Iterated wavedec along axes.
* **C29** Over Q/R (ordered field).
* **C30** Model of the numpy where/any logic; refutation witness + partial law.
* **C31** Model of numpy.pad per mode, one axis after the other for arrays of several dimensions; the extension in n dimensions (`ndext`) is specified separately. 0-d data and fractional widths are not modelled.
* **C32** Sum manipulation.
* **C33** Model of discrete_wavelet's fill loops.
* **C34** Tables transcribed to exact rationals; residual computed by vm_compute; perturbation lemma.
* **C35** Model of attribute lookup.
* **C36** Inductive tree model.
* **C37** State machine over tree operations.
* **C38** List recursion.
* **C39** Refutation by history witness.
* **C40** Linearity + PR.
* **C41** Heap model of aliasing; refutation.
* **C42** State model of pop/restore; refutation for raising calls.
* **C43** Fuel argument: for every fuel the model runs out of fuel on the witness.
* **C44** size_t arithmetic modulo 2^64.
* **C45** Model of registry tables.
* **C46** Model of the conv branch; the fft branch is trusted to be an exact FFT.
* **C47** From C03.
* **C48** Lengths.
* **C49** Definitional model comparison by induction on level.
* **C50** Ring of pairs.
* **C51** Field algebra.
* **C52** Case analysis on lengths.
* **C53–C69** found while modelling; see properties.jsonl.
* **C70–C72** n-D stationary transform. NdSwtSpec.v is the spec (one undecimated filter per axis). The inverse averages, over all shifts of the 2^l-spaced subgrids, the periodization inverse of the subgrid; NdSynth/SwtNdLevel show one level of iswtn computes that for arbitrary coefficients, SwtNdLevel2 that it is the identity on the sub-bands.
* **C73–C74** n-D multiresolution analysis. MranLoop specifies the loop that blanks all but one coefficient array (for any inverse), MranSum turns an additive inverse with perfect reconstruction into the sum, MranAdd/MranSwt/MranDwt prove both inverses additive on arbitrary coefficients. The default level is refuted.
* **C75–C76** wavelet packets, continued: where maxlevel comes from (PacketsMax: closest node above, else first below, specified by inductive relations independent of the recursion) and the orders of the 2-D and n-D get_level (PacketsLevel2/3; the grid as rows × columns of a Gray code).
* **C77–C83** wavefun of the discrete wavelets: two-scale equation (spec WavefunSpec: the cascade as a recursion on the grid), sums, orthonormality, translates, moments; integrate_wavelet; central_frequency.
* **C84–C89** continuous wavelets over the reals (Continuous; spec ContinuousSpec/ContinuousDoc: n-th derivatives, integrals over the line by antiderivatives with limits). GaussInt proves the Gaussian integral, ContinuousPoly the calculus of (A cos wx + B sin wx) exp(c x²/2) with integer polynomials A, B; the energies are found by polynomials Q with Q' - 4xQ = P - c.
* **C90, C91** central_frequency and cwt of a continuous wavelet given by its name (CwtReal; spec CwtRealSpec): the parameters of Cwt.v over pairs of real numbers. CwtRealProofs shows that exp(±2πi/n) and 1/n are the roots of unity the method "fft" needs, so that both methods agree.
* **C92** the axes accepted by iswtn: negative axes below -ndim wrap around (refuted).
* **C93** polynomial signals (PolyData; spec PolySpec: `polynomial`, `inside`): high-pass filters with vanishing moments (`moment` of WavefunSpec, a hypothesis) annihilate polynomials in the interior, constants and lines up to the borders.
* **C94** `vanishing_moments_psi` (TableMoments, BuiltinMoments; spec MomentSpec): binomial moments of the integer mantissas of the tables, checked by computation, give bounds of the power moments relative to the moments of the absolute values. The attribute of rbio is refuted.
* **C95-C98** element types (Dtype; spec DtypeSpec: `nearest`, `joint`, `no_loss`, `fits`): the choice of the dtype of every result, and the conversions that change values (complex to real, float to integer). The loss of imaginary parts in iswtn/iswt2, in packing and in packet assignment is refuted with the exact condition under which nothing is lost.
* **C99** copies and pickles (Pickle): the constructor calls named by the `__reduce__` methods. Name and filters survive; flags, moments, family, later changes, axes and subnodes do not.
* **C100-C102** rounding errors (RawConv, Rounding; spec: `rounded`, `conv_bound`, `steps_bound` in Rounding.v). RawConv.v transcribes the kernels again over arbitrary operations (no ring laws), proves that over a ring they are the model used elsewhere, and RawRel.v proves them parametric: related operations give related results. Running the kernel on (float, exact) pairs next to a counter of (sum of absolute values, number of terms) gives the forward error of every coefficient in the order of summation of the code. The built-in wavelets combine this with the residuals of the tables (C34).
* **C106** walk and walk_depth of packet nodes, with and without decomposition.
* **C107** demo_signal: lengths, errors and values of the test signals, also with the array lengths of double precision; the values of all samples as functions of their number (spec DemoValuesSpec).
* **C108** coeffs_to_array of lists that are not the result of a transform: errors, overwritten and repeated details.
* **C109, C110** thresholding of complex data (ThreshC; spec ThreshCSpec: lengths, costs and rotations of the plane) and of infinite thresholds (ThreshInf), with the documented formulas.
* **C111** the keys and coordinates of the pictures of packet bases (DocUtils; spec DocUtilsSpec: trees of keys and cutting a picture into rectangles).
* **C112** signals and filters read backwards (ReversalSpec, Reversal, Reversal2, Reversal3); **C113** the window of samples of a coefficient; **C114** the attribute symmetry of the discrete wavelets (DiscreteSymmetry; spec SymmetrySpec: filters equal to their mirror image up to a sign).
* **C115** the picture of an extension mode (BoundaryPlot; spec BoundaryPlotSpec).
* **C116, C117** changes of coefficients (Denoise; spec `dist2`, `dist2s`, `size1`, `nonzeros`, `small2` in DenoiseSpec): orthonormal banks keep distances (from the inner products of C104 and the inverse of C103), so minimising over data is minimising coefficient by coefficient (C109). C116 for n-dimensional data: DenoiseNd (spec `nddist2`, `ddist2s`, `alike` in DenoiseNdSpec); C117 for n-dimensional data: DenoiseNdFlat reduces sums over multi-indices to sums over the elements, DenoiseNdReal applies the results for lists.
* **C119** sums of coefficients (Mean, MeanReal, MeanNd, MeanNdReal, MeanSwtNd; spec `total`, `taps_sum`, `power` in MeanSpec): sums over one period; the 2x2 matrix of tap sums of an orthonormal bank is orthogonal (energy of data of length 2).
* **C120** inner products of packets (PacketsEnergy, PacketsEnergyNd): induction over the tree with the identity of one step from C104; the data of the nodes from C36.
* **C121** what swt, iswt, swt2, swtn and iswtn refuse (SwtNdRefuse): the order of their checks. **C122** the same for dwt, idwt, dwtn, idwtn, wavedec2, wavedecn, waverecn (DwtRefuse), waverec2, wavedecn_shapes, dwtn_max_level (WaverecRefuse).
* **C28**, **C88** further (PropsGaps): the order of the detail keys by `tuple_before` (FswKeys), and the attributes given by the name of a continuous wavelet (ContinuousName). PropsPins (SpecPins) states C22, C23, C70 (names of an axis), C29 (comparisons) and C61 (numbers in names) where older theorems use a helper of the model in the statement.
* **C118** decompose of a node without data (PacketsEmpty): an invariant of the loop over the parts; `bare` is the node just made. In the 2-D class the code makes the subnodes in the order a, v, h, d, the model in the order of PARTS; only the numbering of the model's heap depends on it.
* **C103-C105** periodization mode further (spec: `doubling` in CyclicMain, `ndinner`, `dual` in ParsevalNd, `ndroll` in RollNd). Cyclic.v builds the commutative ring of circular convolutions of length n; analysis and synthesis are 2x2 matrices over it (even/odd samples against low/high band), and over a commutative ring a one-sided inverse of a 2x2 matrix is two-sided. CyclicNd lifts this to n-D, ParsevalNd proves Fubini for sums over an axis and turns analysis by w into the adjoint of synthesis by its dual, RollNd moves shifts through the axes.

## Trusted base

* The Coq 8.16.1 kernel (and its `vm_compute`), the standard library.
* No axioms of our own. `Print Assumptions` follows every property theorem; each is closed under the global context except C84–C89 and later ones over the real numbers, which use the axioms of the standard library behind `Reals`: `ClassicalDedekindReals.sig_forall_dec`, `ClassicalDedekindReals.sig_not_dec`, `FunctionalExtensionality.functional_extensionality_dep` and in part `Classical_Prop.classic`. The files that load `lia`/`lra` also load `Coq.ssr.ssrunder`, whose module parameters (`Coq.ssr.ssrunder.Under_rel.*`, 7 of them) are reported by a whole-library listing such as `coqchk -o`; no theorem here depends on them.
* The reading of the sources: every model definition cites the file and lines it transcribes; nothing was executed. The correspondence model/source is by inspection.
* The rendering of Python: integers are Z, exceptions are error codes, lists are lists; iteration order of dicts is insertion order.

## What is modelled

* `pywt/_extensions/c`: common.c (lengths, levels), convolution.template.c (all kernels), wt.template.c (dwt, idwt, swt, downcoef/upcoef helpers, the axis functions), wavelets.c (discrete_wavelet; continuous_wavelet), cwt.template.c over the real numbers, the tables of wavelets_coeffs.template.h as exact decimals.
* `pywt/_extensions/*.pyx`: _dwt.pyx, _swt.pyx, the parts of _pywt.pyx for modes, names, wavelist, filter banks, custom wavelets.
* `pywt/_dwt.py`, `_multidim.py`, `_multilevel.py`, `_swt.py`, `_mra.py` (mra for 1-D data; imra, imra2, imran on a heap of arrays; mra2 and mran), `_thresholding.py` (real data over Q with inf and nan, Threshold.v, ThreshInf.v; complex data over pairs of reals, ThreshC.v), `_functions.py` (qmf, orthogonal_filter_bank, scale/frequency).
* `pywt/data/_wavelab_signals.py`: demo_signal (Demo.v, spec DemoSpec.v) over the real numbers, `None` for NaN. The numbers of elements of the two calls np.arange(float, float) are parameters of the model; `tcount64` and `hcount64` are their values in IEEE double precision (the rounding of DemoFloat.v is proved to have relative error 2^-53). The roundings to integers of n/12, 0.65*n, sqrt(n) are those of the exact values. Non-integral n is not modelled.
* `pywt/_wavelet_packets.py`: the node classes and WaveletPacket, WaveletPacket2D, WaveletPacketND over a heap of node objects (get, set, delete, decompose, reconstruct, subnodes, levels, leaves). Theorems quantify over arbitrary sequences of these operations. `data` given as a list or a node is modelled separately (`assigned` in Dtype.v, the value stored). Pickling of packets is in Pickle.v (wavelets too; Node objects and WaveletPacketND have no `__reduce__` of their own and are not modelled there). walk and walk_depth with user functions are in PacketsWalk.v (C106; spec `preorder`, `postorder`, `words_pre`, `words_post` in PacketsWalkSpec.v): the function looks at nodes and its result depends on the path of the node. Not modelled: functions that change the tree they are walked over.
* `pywt/_multilevel.py` lines 581-887 and 1034-1191 (Packing.v): coeffs_to_array, array_to_coeffs, ravel_coeffs, unravel_coeffs and their helpers, with numpy slicing (bounds >= 0) and broadcasting assignment; the content of np.empty is an arbitrary function. One element type; the conversion to the dtype of the approximation is modelled on top in Dtype.v. Simplified: arr[()] of a 0-d array is an array.
* `pywt/_multilevel.py` lines 90-109, 147-176 for arrays with an axis, and 1194-1562 (Fsw.v): wavedec, waverec, fswavedecn, fswaverecn and FswavedecnResult (indexing, assignment, approx, detail_keys) with numpy.concatenate. Simplified: slices of an array are copies, so with `axes=()` the aliasing of the result and the data is not seen; one element type.
* `pywt/_cwt.py` (Cwt.v): the whole of cwt, both methods, n-D data, the frequencies, and the integration of `_functions.py` it uses. Parameters: the samples and grid given by wavefun(10), the central frequency, np.sqrt, conj, real, and the roots of unity of np.fft. Simplified: no rounding, so the number of samples of a scaled wavelet is computed exactly. CwtReal.v gives these parameters their values over the complex numbers, with the samples of the wavelet from Continuous.v.
* Wavelet.wavefun of `_extensions/_pywt.pyx` and integrate_wavelet, central_frequency, scale2frequency, frequency2scale of `pywt/_functions.py` for discrete wavelets (Wavefun.v). Parameters: the number sqrt(2.), and for central_frequency the magnitudes of the spectrum.

## What is not modelled, or simplified

* Rounding, except in C100-C102; overflow of floats, NaN/inf (except where `xq` in Threshold.v says so). C100-C102 assume the standard model (relative error u per operation, absolute error eta per product, sums and differences with a zero exact), no contraction of `s += f * x` to a fused operation and no reordering of sums by the compiler; they cover dwt, idwt, wavedec, waverec of 1-D data in the modes other than smooth and antireflect for the decomposition (these two extrapolate with extra operations). The float32 and float64 copies of a kernel are one model; complex data are pairs.
* numpy: `asarray`, dtype promotion, broadcasting, `np.pad`, `np.sum`, `argmax`, FFT are given by their specification in the model that uses them (stated there).
* Memory: allocation succeeds up to the limit `max_alloc` of Lengths.v; buffers passed to one kernel are distinct objects.
* Strings are ASCII (Names.v); warnings are not modelled.
* The plotting code (calls of matplotlib; the coordinates drawn by pywt/_doc_utils.py are modelled) and the demo scripts; the image and time-series files of pywt/data.
* Tables.v keeps the printed decimals; the code stores them rounded to float/double (`rounded_bank` in C102: one relative error per tap, two for coif, which is a product).

## Log of wrong programs

`seeded/LOG.jsonl` has one line per edit of a model definition, made in a copy of the development.

* `caught` means that a proof no longer checks. A script can also break on an edit that leaves its statement true, so `caught` alone does not show that the property is false of the edited program.
* `failed` names the first lemma that fails in each build. `property_theorems_lost` lists the property theorems that depend on it, from the references in the .glob files.
* For the edits of C121 and C122 the difference was also looked at edit by edit. Where it was not plain, a counterexample was computed in the edited model. Edits found equivalent are marked `"caught": false` with the reason in `note`. The older entries were not gone through in this way.
