{"id": "C01", "title": "Length of dwt coefficients", "statement": "dwt(x, w, mode) returns cA and cD of equal length, and that length is dwt_coeff_len(len(x), w.dec_len, mode): ceil(N/2) for 'periodization' and floor((N+F-1)/2) for every other mode.", "quantifier": "every data length N>=1, every filter length F>=1 and every signal extension mode", "why_tests_cant": "only finitely many (N, F, mode) triples can be tried; the length formula and the loop that fills the buffer are written in different places and must agree for all of them", "anchors": ["pywt/_extensions/c/common.c: dwt_buffer_length", "pywt/_extensions/_dwt.pyx: dwt_single", "pywt/_dwt.py: dwt, dwt_coeff_len", "pywt/_extensions/c/convolution.template.c: downsampling_convolution, downsampling_convolution_periodization"]}
{"id": "C02", "title": "dwt is a convolution with the mathematically extended signal", "statement": "Coefficient k of dwt(x, w, mode) equals sum_j dec[j]*e(2k+1-j) where e is the infinite extension of x prescribed by the mode (zero, constant, symmetric, reflect, periodic, smooth, antisymmetric, antireflect), also when the filter is longer than the data so that the extension wraps many times.", "quantifier": "every signal of length N>=1 (N>=2 for reflect/antireflect), every filter of length F>=1, every coefficient index and the eight non-periodization modes", "why_tests_cant": "the code never materialises the extension: four loop phases times eight modes with nested wrap-around loops; boundary errors show up only for particular N, F, parity and phase combinations", "anchors": ["pywt/_extensions/c/convolution.template.c: downsampling_convolution", "pywt/_extensions/c/wt.template.c: dec_a, dec_d", "pywt/_extensions/_dwt.pyx: dwt_single"]}
{"id": "C03", "title": "dwt periodization is a circular convolution", "statement": "In mode 'periodization' coefficient k of dwt equals sum_j dec[j]*e(2k+F/2-j) where e is the periodic extension of the data, first padded by one copy of the last sample if the length is odd.", "quantifier": "every signal of length N>=1 and every filter of length F>=1, including F larger than N", "why_tests_cant": "four hand-written loop phases with nested wrap-around and a separate padding loop; only exhaustive reasoning covers all N/F/parity combinations", "anchors": ["pywt/_extensions/c/convolution.template.c: downsampling_convolution_periodization lines 44-124"]}
{"id": "C04", "title": "Memory safety and termination of the transform kernels", "statement": "For every call that passes the Python-level checks of dwt/idwt, the kernels read the data and filter buffers only inside their bounds, write every output element only inside the output buffer, and terminate.", "quantifier": "all data lengths, filter lengths, modes, for forward and inverse single-level transforms", "why_tests_cant": "an out-of-bounds access may be silent, and an endless loop cannot be observed by a finite test; must hold for all sizes", "anchors": ["pywt/_extensions/c/convolution.template.c: downsampling_convolution, downsampling_convolution_periodization, upsampling_convolution_valid_sf, upsampling_convolution_valid_sf_periodization, upsampling_convolution_full"]}
{"id": "C05", "title": "Perfect reconstruction for one level (non-periodization modes)", "statement": "If the filter bank satisfies the perfect-reconstruction identities, idwt(*dwt(x, w, mode), w, mode) equals x for even len(x), and equals x followed by one extra sample for odd len(x), in each of the eight non-periodization modes.", "quantifier": "every signal of length N>=1, every even-length perfect-reconstruction filter bank, every non-periodization mode", "why_tests_cant": "the identity couples two independently written kernels for all lengths and parities; tests sample a few lengths and compare to 1e-11", "anchors": ["pywt/_extensions/c/convolution.template.c: downsampling_convolution, upsampling_convolution_valid_sf", "pywt/_dwt.py: dwt, idwt", "pywt/_extensions/_dwt.pyx: dwt_single, idwt_single"]}
{"id": "C06", "title": "Perfect reconstruction for one level (periodization)", "statement": "For a perfect-reconstruction filter bank idwt(*dwt(x,w,'periodization'),w,'periodization') equals x for even len(x) and x followed by a repetition of its last sample for odd len(x).", "quantifier": "every signal of length N>=1 and every even-length perfect-reconstruction filter bank, including filters longer than the signal", "why_tests_cant": "depends on a one-sample shift that is applied only when F/2 is even, plus wrap-around in five loop phases; no finite set of lengths settles it", "anchors": ["pywt/_extensions/c/convolution.template.c: downsampling_convolution_periodization, upsampling_convolution_valid_sf_periodization"]}
{"id": "C07", "title": "The extra sample of odd-length reconstruction", "statement": "For odd N the extra (N+1)-th sample returned by idwt(dwt(x)) is the value of the extended signal at position N, so dropping it recovers x exactly and nothing else changes.", "quantifier": "every odd length and every mode", "why_tests_cant": "quantifies over all odd lengths and all modes", "anchors": ["pywt/_extensions/_dwt.pyx: idwt_single", "pywt/_extensions/c/convolution.template.c: upsampling_convolution_valid_sf"]}
{"id": "C08", "title": "Linearity of dwt and idwt", "statement": "dwt(a*x+b*y) = a*dwt(x)+b*dwt(y) coefficientwise and likewise idwt in its coefficient arguments, in every mode.", "quantifier": "all scalars, all signals of equal length, all filters, all modes", "why_tests_cant": "a universally quantified algebraic law", "anchors": ["pywt/_extensions/_dwt.pyx: dwt_single, idwt_single", "pywt/_extensions/c/convolution.template.c"]}
{"id": "C09", "title": "idwt with a missing coefficient array", "statement": "idwt(cA, None) equals idwt(cA, zeros), idwt(None, cD) equals idwt(zeros, cD), idwt(cA, cD) = idwt(cA, None) + idwt(None, cD); both None is rejected; arrays of different length are rejected.", "quantifier": "all coefficient arrays, filters, modes", "why_tests_cant": "algebraic law over all inputs", "anchors": ["pywt/_dwt.py: idwt", "pywt/_extensions/_dwt.pyx: idwt_single", "pywt/_extensions/c/wt.template.c: idwt"]}
{"id": "C10", "title": "downcoef agrees with iterated dwt", "statement": "downcoef(part, x, w, mode, level) equals the requested half of the dwt of the (level-1)-times iterated approximation, i.e. the corresponding entry of wavedec; level<1 is rejected.", "quantifier": "all signals, filters, modes and levels", "why_tests_cant": "unbounded level and data length; two independent call paths must agree", "anchors": ["pywt/_extensions/_dwt.pyx: downcoef", "pywt/_dwt.py: downcoef", "pywt/_multilevel.py: wavedec"]}
{"id": "C11", "title": "upcoef is the full (zero-padded) reconstruction and idwt is its interior", "statement": "upcoef(part, c, w, level=1) is the full upsampled convolution of length 2n+F-2; for level L it is iterated with the low-pass filter; take returns the central samples; for non-periodization modes the idwt of (cA,cD) is exactly the interior part of upcoef('a',cA)+upcoef('d',cD).", "quantifier": "all coefficient vectors, filters, levels and take values", "why_tests_cant": "relates two independent kernels for all lengths and all levels", "anchors": ["pywt/_extensions/_dwt.pyx: upcoef", "pywt/_dwt.py: upcoef", "pywt/_extensions/c/wt.template.c: rec_a, rec_d", "pywt/_extensions/c/convolution.template.c: upsampling_convolution_full, upsampling_convolution_valid_sf"]}
{"id": "C12", "title": "Multilevel perfect reconstruction in 1-D", "statement": "waverec(wavedec(x, w, mode, level), w, mode) starts with x exactly and has at most one extra trailing sample, present iff len(x) is odd and level >= 1; including all the intermediate one-sample trims.", "quantifier": "every signal, every admissible level (also levels beyond dwt_max_level), every mode, every perfect-reconstruction filter bank", "why_tests_cant": "induction over unbounded level with odd intermediate lengths", "anchors": ["pywt/_multilevel.py: wavedec, waverec", "pywt/_dwt.py: dwt, idwt"]}
{"id": "C13", "title": "Structure of wavedec output", "statement": "wavedec(x, level=n) returns n+1 arrays [cA_n, cD_n, ..., cD_1]; cD_j is the detail of the (j-1)-fold approximation, and array lengths follow the dwt_coeff_len recurrence.", "quantifier": "all levels, lengths, filters, modes", "why_tests_cant": "unbounded level", "anchors": ["pywt/_multilevel.py: wavedec, _check_level"]}
{"id": "C14", "title": "dwt_max_level", "statement": "dwt_max_level(N, F) is the largest L with (F-1)*2^L <= N, and 0 when none exists or F < 2; it is monotone in N and antitone in F; dwtn_max_level is the minimum of the per-axis values.", "quantifier": "all N, F", "why_tests_cant": "integer-arithmetic identity over all naturals; the code uses bit scans on a quotient", "anchors": ["pywt/_extensions/c/common.c: dwt_max_level, size_log2", "pywt/_dwt.py: dwt_max_level", "pywt/_multilevel.py: dwtn_max_level"]}
{"id": "C15", "title": "swt_max_level", "statement": "swt_max_level(N) is the exponent of the highest power of two dividing N; a level-n swt is accepted iff n>=1 and 2^(start_level+n) divides N (N even, N>=1, start_level below the maximum).", "quantifier": "all N>=1, all levels and start levels", "why_tests_cant": "number-theoretic characterisation over all N", "anchors": ["pywt/_extensions/c/common.c: swt_max_level", "pywt/_extensions/_swt.pyx: swt_max_level, swt"]}
{"id": "C16", "title": "swt is the undecimated circular convolution", "statement": "Level j of swt(x, w) is a_j[n] = sum_m dec_lo[m]*a_{j-1}[(n + 2^(j-1)*(F/2 - m)) mod N] and d_j likewise with dec_hi, for all levels, including zero-inserted filters longer than the data.", "quantifier": "all signals whose length is a multiple of 2^level, all even-length filters, all levels", "why_tests_cant": "the fast path skips zero filter taps using a stride and re-synchronises after wrap-around loops that ignore the stride; correctness depends on divisibility facts for all N, F, level", "anchors": ["pywt/_extensions/c/wt.template.c: swt_, swt_a, swt_d", "pywt/_extensions/c/convolution.template.c: downsampling_convolution_periodization lines 44-124", "pywt/_extensions/_swt.pyx: swt"]}
{"id": "C17", "title": "swt is shift-invariant", "statement": "swt(roll(x,s)) equals roll applied to every coefficient array of swt(x).", "quantifier": "all signals, all shifts s, all levels and filters", "why_tests_cant": "universally quantified over shifts, lengths, levels", "anchors": ["pywt/_extensions/_swt.pyx: swt", "pywt/_extensions/c/wt.template.c: swt_"]}
{"id": "C18", "title": "iswt inverts swt", "statement": "iswt(swt(x, w, level), w) = x for every level; with trim_approx=True as well, and with norm=True.", "quantifier": "all signals with admissible length, all levels, all perfect-reconstruction filter banks (even F)", "why_tests_cant": "induction on level through index-set splitting (even/odd cosets) and averaging of two shifted idwt calls", "anchors": ["pywt/_swt.py: swt, iswt, _rescale_wavelet_filterbank", "pywt/_extensions/_swt.pyx: swt"]}
{"id": "C19", "title": "Energy conservation of the orthonormal transforms", "statement": "For an orthonormal filter bank, dwt in 'periodization' mode preserves energy for even N: |cA|^2+|cD|^2=|x|^2; for swt with norm=True and trim_approx=True the energies of all returned arrays add up to |x|^2; for swtn likewise, over all arrays of all sub-bands and levels, with an orthonormal bank on every axis.", "quantifier": "all even-length signals, all orthonormal filter banks, all levels", "why_tests_cant": "quadratic identity over all signals", "anchors": ["pywt/_extensions/c/convolution.template.c: downsampling_convolution_periodization lines 44-124", "pywt/_swt.py: swt, _rescale_wavelet_filterbank", "pywt/_swt.py: swtn lines 540-677"]}
{"id": "C20", "title": "swt trim_approx and ordering", "statement": "swt(level=n) returns [(cA_n,cD_n),...,(cA_1,cD_1)] and with trim_approx=True exactly [cA_n, cD_n, ..., cD_1] with the same arrays.", "quantifier": "all signals, levels, start levels", "why_tests_cant": "unbounded levels", "anchors": ["pywt/_swt.py: swt", "pywt/_extensions/_swt.pyx: swt"]}
{"id": "C21", "title": "Axis transforms act line by line for any memory layout", "statement": "dwt/idwt/swt along an axis of an n-D array gives, for every line along that axis, exactly the 1-D transform of that line, regardless of the strides of input and output; every output element is written exactly once.", "quantifier": "all numbers of dimensions, shapes, axis choices and (non-overlapping) stride layouts", "why_tests_cant": "index arithmetic over arbitrary shapes and strides; tests use a few small C- or F-ordered arrays", "anchors": ["pywt/_extensions/c/wt.template.c: downcoef_axis, idwt_axis", "pywt/_extensions/_dwt.pyx: dwt_axis, idwt_axis", "pywt/_extensions/_swt.pyx: swt_axis"]}
{"id": "C22", "title": "Separable n-D transforms do not depend on axis order", "statement": "dwtn over a set of axes gives the same coefficient dictionary (up to the corresponding permutation of key letters) whatever order the axes are listed in. Two names of an axis (a and a - n) give the same result.", "quantifier": "all shapes, all axis orders, modes and filters per axis", "why_tests_cant": "Fubini-type exchange of linear operators for all shapes", "anchors": ["pywt/_multidim.py: dwtn"]}
{"id": "C23", "title": "idwtn inverts dwtn; dwt2/idwt2 are the 2-D special case", "statement": "idwtn(dwtn(x, w, mode, axes), w, mode, axes) equals x on the original index range for perfect-reconstruction filters, with one extra slice along exactly the odd-sized transformed axes; dwt2 returns (aa, (da, ad, dd)) of dwtn. idwtn: two names of an axis give the same result.", "quantifier": "all shapes, axes lists (including repeated axes order), modes", "why_tests_cant": "unbounded dimension and sizes", "anchors": ["pywt/_multidim.py: dwtn, idwtn, dwt2, idwt2, _fix_coeffs"]}
{"id": "C24", "title": "waverecn inverts wavedecn", "statement": "waverecn(wavedecn(x, w, mode, level, axes)) agrees with x on x's index range, the result having at most one extra slice per transformed axis.", "quantifier": "all shapes, levels, axes and modes", "why_tests_cant": "unbounded dimension, level, sizes with odd trims at every level", "anchors": ["pywt/_multilevel.py: wavedecn, waverecn, _match_coeff_dims"]}
{"id": "C25", "title": "coeffs_to_array / array_to_coeffs round-trip", "statement": "array_to_coeffs applied to the array and slices returned by coeffs_to_array gives back every coefficient array unchanged; the slices are pairwise disjoint and, when padding is None is accepted, cover the array.", "quantifier": "all coefficient lists with shapes produced by wavedec/wavedecn at any level", "why_tests_cant": "placement arithmetic over unbounded shapes, levels and dimensions", "anchors": ["pywt/_multilevel.py: coeffs_to_array, array_to_coeffs, _determine_coeff_array_shape, _prepare_coeffs_axes"]}
{"id": "C26", "title": "ravel_coeffs / unravel_coeffs round-trip", "statement": "unravel_coeffs(*ravel_coeffs(c)) = c and the raveled vector is the concatenation, without loss or duplication, of all coefficient arrays.", "quantifier": "all coefficient lists and dictionaries", "why_tests_cant": "unbounded lists/sizes", "anchors": ["pywt/_multilevel.py: ravel_coeffs, unravel_coeffs"]}
{"id": "C27", "title": "wavedecn_shapes / wavedecn_size predict wavedecn", "statement": "With the same explicit level, wavedecn_shapes(shape, ...) returns exactly the shapes of wavedecn's output arrays and wavedecn_size their total number of elements; with the default level both functions choose the same level.", "quantifier": "all shapes, levels, modes, wavelets per axis", "why_tests_cant": "two independent implementations have to agree for all shapes; default-level agreement fails only for unequal per-axis filters", "anchors": ["pywt/_multilevel.py: wavedecn_shapes, wavedecn_size, wavedecn, _check_level"]}
{"id": "C28", "title": "fswavedecn / fswaverecn round-trip", "statement": "fswaverecn(fswavedecn(x)) restores x (up to the odd-size extra samples), and the sub-band slices of the result partition the coefficient array.", "quantifier": "all shapes, per-axis levels, modes", "why_tests_cant": "unbounded dimension, per-axis level", "anchors": ["pywt/_multilevel.py: fswavedecn, fswaverecn, FswavedecnResult"]}
{"id": "C29", "title": "Laws of threshold", "statement": "soft: result has the sign of x and magnitude max(|x|-v,0); hard: x if |x|>=v else substitute; garrote: x - v^2/x if |x|>=v else 0; greater/less keep exactly x>=v / x<=v; |garrote| lies between |soft| and |hard|; each is monotone, odd (soft/hard/garrote) and a contraction (soft).", "quantifier": "all real data values and thresholds v > 0", "why_tests_cant": "laws over all reals", "anchors": ["pywt/_thresholding.py: threshold, soft, nn_garrote, hard, greater, less"]}
{"id": "C30", "title": "threshold_firm", "statement": "For 0 < low < high threshold_firm keeps x unchanged where |x| >= high, gives 0 where |x| <= low and interpolates linearly and continuously in between.", "quantifier": "all arrays and all thresholds", "why_tests_cant": "the guard that restores large values inspects the wrong quantity and only misbehaves when the sole large value sits at index 0; random tests miss it", "anchors": ["pywt/_thresholding.py: threshold_firm"]}
{"id": "C31", "title": "pad computes the same extension as dwt uses", "statement": "pad(x, (l, r), mode) equals the window [-l, N+r) of the infinite extension used by dwt in that mode, so dwt of the padded interior agrees with dwt of x.", "quantifier": "all signals, all pad widths, all modes", "why_tests_cant": "pad is implemented with numpy primitives and custom vector flipping, independently of the C kernels; wrap-around and zero-width cases are unbounded", "anchors": ["pywt/_dwt.py: pad"]}
{"id": "C32", "title": "Quadrature mirror construction", "statement": "orthogonal_filter_bank(h) returns (dec_lo, dec_hi, rec_lo, rec_hi) such that rec is the reverse of dec and, whenever the scaling filter h is orthonormal to its even shifts, the bank satisfies the perfect-reconstruction identities; qmf applied twice gives -h for even length.", "quantifier": "all even-length scaling filters", "why_tests_cant": "algebraic law for all filter lengths", "anchors": ["pywt/_functions.py: qmf, orthogonal_filter_bank"]}
{"id": "C33", "title": "Built-in filter banks have the documented structure", "statement": "For orthogonal built-ins rec_lo is the stored scaling filter, dec_lo its reverse, and the high-pass filters are its alternating flips; rbioN.M is biorN.M with analysis and synthesis exchanged and reversed; inverse_filter_bank is (rec reversed) and applying it twice returns the original bank; all four filters have the same even length.", "quantifier": "all scaling filters and all biorthogonal tables", "why_tests_cant": "structure theorem over all tables; tests compare a few names", "anchors": ["pywt/_extensions/c/wavelets.c: discrete_wavelet", "pywt/_extensions/_pywt.pyx: Wavelet"]}
{"id": "C34", "title": "Built-in tables are perfect-reconstruction up to their printed precision", "statement": "For every built-in discrete wavelet the perfect-reconstruction residuals of the coefficient table, computed exactly, are below an explicit bound, and therefore |idwt(dwt(x))-x| is bounded by (explicit constant)*max|x| for every signal and mode in exact arithmetic.", "quantifier": "all built-in wavelets, all signals, all modes", "why_tests_cant": "for all signals at once, in exact rational arithmetic instead of sampled floating-point", "anchors": ["pywt/_extensions/c/wavelets_coeffs.template.h", "pywt/_extensions/c/wavelets.c: discrete_wavelet"]}
{"id": "C35", "title": "Modes.from_object", "statement": "Modes.from_object accepts exactly the nine mode names and the integers 0..8, maps names and codes consistently, and rejects everything else with ValueError.", "quantifier": "all strings and integers", "why_tests_cant": "infinite input domain; attribute-based lookup accepts more than intended", "anchors": ["pywt/_extensions/_pywt.pyx: _Modes.from_object"]}
{"id": "C36", "title": "Wavelet packet reconstruction", "statement": "Decomposing a WaveletPacket to any set of nodes and reconstructing returns the original data (trimmed to the stored length), for perfect-reconstruction filters; reconstruct(update=False) does not modify the tree.", "quantifier": "all data lengths, depths, decomposition trees, modes", "why_tests_cant": "trees of unbounded shape with lazily created nodes and in-place updates", "anchors": ["pywt/_wavelet_packets.py: BaseNode, Node, WaveletPacket"]}
{"id": "C37", "title": "Wavelet packet path bookkeeping", "statement": "For every history of node accesses, assignments and deletions each node's path is its parent's path plus one letter, its level is the path length, its parent link is consistent, and node paths address exactly the stored node.", "quantifier": "all operation sequences", "why_tests_cant": "invariant over histories", "anchors": ["pywt/_wavelet_packets.py: BaseNode.__getitem__, __setitem__, __delitem__, get_subnode, _create_subnode"]}
{"id": "C38", "title": "Order of get_level", "statement": "WaveletPacket.get_level(L, 'natural') yields the 2^L paths in lexicographic order; 'freq' yields a permutation of it in Gray-code order where consecutive paths differ in exactly one letter.", "quantifier": "all levels L", "why_tests_cant": "unbounded L", "anchors": ["pywt/_wavelet_packets.py: get_graycode_order, WaveletPacket.get_level"]}
{"id": "C39", "title": "Reading a node does not change other nodes", "statement": "Accessing wp[path] creates missing nodes but never alters the data of nodes already present.", "quantifier": "all trees and histories", "why_tests_cant": "history-dependent: a user-assigned sibling is silently overwritten only if the other sibling was never created", "anchors": ["pywt/_wavelet_packets.py: BaseNode.get_subnode, decompose"]}
{"id": "C40", "title": "MRA additivity", "statement": "The sum of the arrays returned by mra(x, w, level, transform) equals x, for 'swt' and 'dwt'; the list has level+1 entries of x's shape.", "quantifier": "all signals, levels and modes, perfect-reconstruction filter banks", "why_tests_cant": "combination of linearity and perfect reconstruction for unbounded level", "anchors": ["pywt/_mra.py: mra, imra"]}
{"id": "C41", "title": "imra/imra2/imran are pure", "statement": "The inverse MRA functions do not modify their arguments, so calling them twice gives the same result.", "quantifier": "all inputs", "why_tests_cant": "aliasing with the caller's first array; visible only in a second call", "anchors": ["pywt/_mra.py: imra, imra2, imran"]}
{"id": "C42", "title": "iswtn leaves its arguments unchanged", "statement": "iswtn does not modify the coefficient dictionaries of the caller, also if it raises.", "quantifier": "all inputs, including those on which it raises", "why_tests_cant": "failure path", "anchors": ["pywt/_swt.py: iswtn"]}
{"id": "C43", "title": "Every public transform call terminates", "statement": "dwt, downcoef, wavedec terminate for every non-empty input in every mode.", "quantifier": "all inputs, modes, levels", "why_tests_cant": "non-termination cannot be observed by tests; the size-1 guard exists in only some of the entry points", "anchors": ["pywt/_extensions/_dwt.pyx: dwt_single, dwt_axis, downcoef", "pywt/_extensions/c/convolution.template.c: downsampling_convolution"]}
{"id": "C44", "title": "Invalid coefficient lengths are rejected by idwt", "statement": "idwt with coefficient arrays too short for the filter (2n - F + 2 <= 0) raises an error instead of computing with a wrapped length.", "quantifier": "all coefficient lengths and filter lengths", "why_tests_cant": "unsigned wrap-around appears only for unusual sizes", "anchors": ["pywt/_extensions/c/common.c: idwt_buffer_length", "pywt/_extensions/_dwt.pyx: idwt_single, idwt_axis"]}
{"id": "C45", "title": "wavelist and name lookup agree", "statement": "wavelist(kind='discrete'/'continuous') lists exactly the registered names of that kind, each accepted by Wavelet/ContinuousWavelet resp., sorted within family in numeric order; wavelet names are looked up case-insensitively.", "quantifier": "all names in the registry and all strings as queries", "why_tests_cant": "finite registry but infinite query domain", "anchors": ["pywt/_extensions/_pywt.pyx: wavelist, wname_to_code, is_discrete_wavelet", "pywt/_extensions/wavelets_list.pxi"]}
{"id": "C46", "title": "cwt shape, linearity and method independence", "statement": "cwt(x, scales, w) has one row per scale of the length of x, row i being -sqrt(s) times the central part of the differenced convolution of x with the reversed sampled integrated wavelet; it is linear in x.", "quantifier": "all signals, scales, sampled wavelets", "why_tests_cant": "all lengths and parities of the centring", "anchors": ["pywt/_cwt.py: cwt"]}
{"id": "C47", "title": "Time-shift covariance in periodization mode", "statement": "For even N, rolling x by 2 rolls cA and cD of dwt(x,w,'periodization') by 1.", "quantifier": "all even-length signals and filters", "why_tests_cant": "all lengths, shifts", "anchors": ["pywt/_extensions/c/convolution.template.c: downsampling_convolution_periodization lines 44-124"]}
{"id": "C48", "title": "Length of idwt", "statement": "idwt returns 2n samples in periodization mode and 2n-F+2 samples otherwise, and idwt(dwt(x)) has length N if N is even and N+1 if N is odd.", "quantifier": "all n, F with 2n+2>F", "why_tests_cant": "all lengths", "anchors": ["pywt/_extensions/c/common.c: idwt_buffer_length, dwt_buffer_length", "pywt/_extensions/_dwt.pyx: idwt_single"]}
{"id": "C49", "title": "dwt2/wavedec2 and dwtn/wavedecn agree", "statement": "wavedec2 and waverec2 are wavedecn/waverecn for two axes with the renaming h=da, v=ad, d=dd.", "quantifier": "all 2-axis inputs and levels", "why_tests_cant": "two code paths for all sizes and levels", "anchors": ["pywt/_multilevel.py: wavedec2, waverec2, wavedecn lines 360-442, waverecn lines 461-578", "pywt/_multidim.py: dwt2, idwt2"]}
{"id": "C50", "title": "Complex data", "statement": "The transform of complex data equals transform(real part) + i*transform(imaginary part).", "quantifier": "all complex signals", "why_tests_cant": "law over all inputs", "anchors": ["pywt/_dwt.py: dwt, idwt, downcoef, upcoef", "pywt/_extensions/_dwt.pyx"]}
{"id": "C51", "title": "Scale/frequency conversion", "statement": "frequency2scale and scale2frequency are mutually inverse.", "quantifier": "all positive scales/frequencies and all wavelets with non-zero central frequency", "why_tests_cant": "all reals", "anchors": ["pywt/_functions.py: scale2frequency, frequency2scale"]}
{"id": "C52", "title": "Per-axis broadcasting of wavelets and modes", "statement": "A single wavelet or mode is used for every axis, a length-1 sequence is broadcast, a sequence with one entry per axis is used in order, and any other length is rejected.", "quantifier": "all axes lists and sequences", "why_tests_cant": "all lengths", "anchors": ["pywt/_utils.py: _wavelets_per_axis, _modes_per_axis"]}
{"id": "C53", "title": "Default level of swt with a start level", "statement": "swt(x, w, level=None, start_level=s) succeeds whenever some level is admissible for start_level s, i.e. whenever 2^(s+1) divides len(x).", "quantifier": "all signals, all start levels", "why_tests_cant": "relation between two defaults over all lengths", "anchors": ["pywt/_swt.py: swt", "pywt/_extensions/_swt.pyx: swt"]}
{"id": "C54", "title": "iswt and start_level", "statement": "iswt(swt(x, w, level, start_level=s), w) returns the approximation at level s (x itself for s=0).", "quantifier": "all signals, levels, start levels", "why_tests_cant": "unbounded start levels", "anchors": ["pywt/_swt.py: iswt", "pywt/_extensions/_swt.pyx: swt"]}
{"id": "C55", "title": "Axes outside the array are never used for memory access", "statement": "dwtn, dwt2 and idwtn called with an axis that is not a dimension of the data raise an exception and never read or write outside the arrays.", "quantifier": "all arrays, all axes arguments", "why_tests_cant": "an out-of-bounds access usually goes unnoticed", "anchors": ["pywt/_multidim.py: dwtn, dwt2, idwtn", "pywt/_extensions/_dwt.pyx: dwt_axis, idwt_axis"]}
{"id": "C56", "title": "idwtn never returns None silently", "statement": "idwtn returns an array or raises; in particular a mismatch between the length of the keys and the number of axes is rejected.", "quantifier": "all coefficient dictionaries and axes", "why_tests_cant": "needs all combinations of key lengths and axes", "anchors": ["pywt/_multidim.py: idwtn, _fix_coeffs"]}
{"id": "C57", "title": "wavedecn/wavedec2 reject repeated axes", "statement": "wavedecn and wavedec2 raise ValueError whenever two entries of axes denote the same axis.", "quantifier": "all axes arguments", "why_tests_cant": "the tests only try literally repeated entries", "anchors": ["pywt/_multilevel.py:340-358", "pywt/_multilevel.py:179-253"]}
{"id": "C58", "title": "Threshold 0 keeps the data", "statement": "threshold(data, 0, mode) returns the data unchanged for soft and garrote thresholding.", "quantifier": "all real data", "why_tests_cant": "zeros in the data give 0/0 = nan, which example-based tests with positive thresholds never reach", "anchors": ["pywt/_thresholding.py: soft, nn_garrote"]}
{"id": "C59", "title": "threshold_firm with equal thresholds is hard thresholding", "statement": "For value_high == value_low threshold_firm equals hard thresholding, as documented.", "quantifier": "all arrays and all thresholds > 0", "why_tests_cant": "the claim concerns values exactly on the threshold and the position of the large values", "anchors": ["pywt/_thresholding.py: threshold_firm"]}
{"id": "C60", "title": "downcoef and upcoef reject unknown parts", "statement": "downcoef and upcoef accept part only if it is 'a' or 'd' and raise ValueError otherwise.", "quantifier": "all strings", "why_tests_cant": "tests try one or two wrong letters; the empty string and longer strings pass a substring test", "anchors": ["pywt/_dwt.py: downcoef, upcoef"]}
{"id": "C61", "title": "Parameters in continuous wavelet names", "statement": "ContinuousWavelet accepts a name starting with cmor or shan and followed by parameters exactly when it has the documented form B-C with decimal numbers B and C, and takes the parameters from it. The number is read in base ten.", "quantifier": "all strings", "why_tests_cant": "infinite set of names; the pattern used for parsing skips everything that is not a digit", "anchors": ["pywt/_extensions/_pywt.pyx: cwt_pattern, ContinuousWavelet.__cinit__"]}
{"id": "C62", "title": "N-D wavelet packet reconstruction", "statement": "Decomposing a WaveletPacketND to any set of nodes and reconstructing returns the original data, as for the 1-D and 2-D classes.", "quantifier": "all shapes, axes, depths, decomposition trees, modes", "why_tests_cant": "only odd sizes along some axis at some depth differ", "anchors": ["pywt/_wavelet_packets.py: NodeND, WaveletPacketND"]}
{"id": "C63", "title": "Rebuilding a packet from its leaves", "statement": "Assigning to an empty packet the data of the leaves of any complete tree, in any order, and reconstructing returns the original data.", "quantifier": "all data, trees, orders of assignment, modes", "why_tests_cant": "unbounded trees and orders; fails only if a size on the way is odd, since an empty packet does not know the sizes", "anchors": ["pywt/_wavelet_packets.py: BaseNode.__setitem__, Node.reconstruct, WaveletPacket.reconstruct"]}
{"id": "C64", "title": "Missing coefficients are rejected when packing", "statement": "coeffs_to_array and ravel_coeffs raise ValueError, as documented, when some coefficient array in a list of detail dictionaries is None.", "quantifier": "all coefficient lists of dictionaries with a None, all shapes, axes and padding values", "why_tests_cant": "any position and level, any combination of shapes", "anchors": ["pywt/_multilevel.py: coeffs_to_array, ravel_coeffs, _determine_coeff_array_shape, wavedecn_size"]}
{"id": "C65", "title": "wavedec/waverec along an axis of an n-D array", "statement": "wavedec(x, w, mode, level, axis) on an array of any dimension transforms every line along the axis as the 1-D transform does, and waverec of the result restores x up to the extra sample of an odd size.", "quantifier": "all shapes, strides, axes, levels, modes, perfect reconstruction banks", "why_tests_cant": "unbounded dimension, level and memory layout", "anchors": ["pywt/_multilevel.py: wavedec, waverec"]}
{"id": "C66", "title": "fswavedecn rejects repeated or out-of-range axes", "statement": "fswavedecn raises AxisError when two of the given axes denote the same axis of the data, or when an axis is out of range.", "quantifier": "all shapes and lists of axes", "why_tests_cant": "all spellings of axes, negative and positive", "anchors": ["pywt/_multilevel.py: fswavedecn, _check_fswavedecn_axes"]}
{"id": "C67", "title": "Integer-valued float keys of FswavedecnResult", "statement": "A key of integer-valued floats accepted by FswavedecnResult._validate_index selects the same sub-band as the corresponding integers (\"convert integer-valued floats to int\").", "quantifier": "all results and keys", "why_tests_cant": "kinds of numbers in any position", "anchors": ["pywt/_multilevel.py: FswavedecnResult._validate_index, __getitem__"]}
{"id": "C68", "title": "cwt accepts discrete wavelets", "statement": "cwt accepts a discrete Wavelet object, or the name of a discrete wavelet, as its documentation and its isinstance check say.", "quantifier": "all data, scales and discrete wavelets", "why_tests_cant": "tests use continuous wavelets only", "anchors": ["pywt/_cwt.py: cwt lines 106-120", "pywt/_extensions/_pywt.pyx: complex_cwt"]}
{"id": "C69", "title": "cwt rejects an axis outside the data", "statement": "cwt raises AxisError when the axis is not in [-ndim, ndim).", "quantifier": "all data of any dimension, all axes", "why_tests_cant": "all dimensions and axes", "anchors": ["pywt/_cwt.py: cwt lines 133-135"]}
{"id": "C70", "title": "Every sub-band of swtn is the one its key names", "statement": "For every level and key, the array swtn returns is the data's previous approximation filtered without decimation along each chosen axis with the low-pass (a) or high-pass (d) filter of that axis dilated by 2^(level-1), in coarsest-first order, with or without trim_approx, norm and start_level; swt along an axis likewise. Two names of an axis give the same result.", "quantifier": "all arrays of any dimension, axes, wavelets per axis, levels", "why_tests_cant": "dimension, axes and levels are unbounded; tests cover 1-D to 4-D with a few wavelets", "anchors": ["pywt/_swt.py: swtn, swt", "pywt/_extensions/_swt.pyx: swt_axis"]}
{"id": "C71", "title": "iswtn undoes swtn; iswt along an axis undoes swt", "statement": "For a perfect reconstruction bank per axis and sizes divisible by 2^level, iswtn(swtn(x)) = x for start_level 0, with and without trim_approx and norm.", "quantifier": "all arrays of any dimension, all sets of distinct axes, wavelets per axis, levels", "why_tests_cant": "dimension and levels are unbounded", "anchors": ["pywt/_swt.py: swtn, iswtn, swt, iswt"]}
{"id": "C72", "title": "swt2 and iswt2 are swtn and iswtn on two axes", "statement": "swt2 returns (cA, (cH, cV, cD)) with the sub-bands aa, da, ad, dd; iswt2 undoes swt2; and iswt2 equals iswtn on arbitrary coefficient arrays of one shape.", "quantifier": "all arrays, pairs of axes, wavelets, levels, arbitrary coefficients", "why_tests_cant": "two separate implementations agree on all inputs", "anchors": ["pywt/_swt.py: swt2, iswt2, iswtn"]}
{"id": "C73", "title": "The terms of mra2 and mran add up to the data", "statement": "For a perfect reconstruction bank per axis, mran and mra2 return one approximation and, per level, one array for every other sub-band, all of the shape of the data, whose sum is the data, for the stationary and the decimated transform; imran and imra2 on those terms return the data; an unknown transform, or the stationary one with a mode other than periodization, is refused.", "quantifier": "all arrays of any dimension, axes, wavelets and modes per axis, levels", "why_tests_cant": "dimension, shapes and levels are unbounded; odd sizes and per-axis settings interact", "anchors": ["pywt/_mra.py: mra2, imra2, mran, imran"]}
{"id": "C74", "title": "The default level of mra2 and mran with the stationary transform fits the transformed axes", "statement": "With level=None, mran and mra2 decompose to the largest level the transformed axes allow.", "quantifier": "all shapes and axes", "why_tests_cant": "tests use axes covering the data, or give the level", "anchors": ["pywt/_mra.py: mra2 line 210, mran line 353"]}
{"id": "C75", "title": "maxlevel of a wavelet packet node", "statement": "node.maxlevel is the maximum level recorded at, or computed from the data of, the closest node going upwards from the node itself; if there is none, of the first such node below it; if there is none either it is None. It is remembered at the node. In a packet built from data all nodes have the level of the packet.", "quantifier": "all packet classes, all histories of operations on the tree, all nodes", "why_tests_cant": "unbounded histories and trees", "anchors": ["pywt/_wavelet_packets.py: BaseNode.maxlevel, _evaluate_maxlevel"]}
{"id": "C76", "title": "Order of the 2-D and n-D get_level", "statement": "WaveletPacket2D.get_level(L, 'natural') yields the 4^L paths in lexicographic order of a, h, v, d; 'freq' yields the same nodes as a grid whose rows and columns run through a Gray code of low and high pass. WaveletPacketND.get_level yields the 2^(L*axes) paths in lexicographic order.", "quantifier": "all levels L, all data, all histories of reads", "why_tests_cant": "unbounded L", "anchors": ["pywt/_wavelet_packets.py: WaveletPacket2D.get_level, expand_2d_path, WaveletPacketND.get_level"]}
{"id": "C77", "title": "Arrays returned by wavefun", "statement": "For level >= 1 wavefun(level) returns arrays of (F-1)*2^level samples (one more for an orthogonal wavelet, 2^level+2 for F = 2) which are the level-th iterates of the two-scale equations phi_{L+1}(x) = sqrt2 * sum h_k phi_L(2x-k), psi_{L+1}(x) = sqrt2 * sum g_k phi_L(2x-k) started from a unit pulse, sampled at the points of x minus 2^-level; for biorthogonal wavelets both pairs, the wavelets with the documented sign. Levels below 1 raise ValueError.", "quantifier": "all filters of even length >= 2, all levels", "why_tests_cant": "unbounded level, arbitrary filters; tests compare one level of few wavelets", "anchors": ["pywt/_extensions/_pywt.pyx: Wavelet.wavefun lines 550-655, keep, get_keep_length, fix_output_length, get_right_extent_length lines 1002-1059"]}
{"id": "C78", "title": "Sums of the sampled scaling function and wavelet", "statement": "If the low-pass filter sums to sqrt 2 the samples of phi add up to 2^level (integral 1); if the high-pass filter sums to 0 so do the samples of psi.", "quantifier": "all such filters, all levels", "why_tests_cant": "unbounded level", "anchors": ["pywt/_extensions/_pywt.pyx: Wavelet.wavefun lines 550-655"]}
{"id": "C79", "title": "Orthonormality of the sampled functions", "statement": "For a filter orthonormal to its even shifts the arrays phi and psi of wavefun have square norm 2^level and are orthogonal to each other and to all translates by integers; for a biorthogonal pair the same holds between reconstruction and decomposition functions.", "quantifier": "all such filters, all levels, all integer translates", "why_tests_cant": "unbounded level and translate", "anchors": ["pywt/_extensions/_pywt.pyx: Wavelet.wavefun lines 550-655"]}
{"id": "C80", "title": "Integer translates of phi add up to 1", "statement": "If the even and the odd entries of the low-pass filter sum to 1/sqrt 2 each, the samples of phi at distance one unit of x add up to 1 at every grid point.", "quantifier": "all such filters, all levels, all grid points", "why_tests_cant": "unbounded level", "anchors": ["pywt/_extensions/_pywt.pyx: Wavelet.wavefun lines 550-655"]}
{"id": "C81", "title": "Vanishing moments of the sampled wavelet", "statement": "If the moments 0..m of the high-pass filter vanish, the m-th moment of the samples of psi vanishes.", "quantifier": "all filters, all m, all levels", "why_tests_cant": "unbounded level", "anchors": ["pywt/_extensions/_pywt.pyx: Wavelet.wavefun lines 550-655"]}
{"id": "C82", "title": "integrate_wavelet", "statement": "integrate_wavelet(wavelet, precision) returns the running sums of the samples of psi (of both wavelets for a biorthogonal one) times the step 2^-precision, and the grid; the last entry is 0 for a wavelet whose filter sums are sqrt 2 and 0.", "quantifier": "all filters, all precisions", "why_tests_cant": "unbounded precision", "anchors": ["pywt/_functions.py: integrate_wavelet lines 51-117, _integrate"]}
{"id": "C83", "title": "central_frequency and scale2frequency", "statement": "central_frequency returns the absolute value of the frequency at which the spectrum of psi is largest: min(k, N-k) cycles per length of the grid, k the first position of the maximum other than 0. scale2frequency and frequency2scale divide it by their argument and are inverse to each other.", "quantifier": "all spectra and grids", "why_tests_cant": "arbitrary spectra; tests check few wavelets", "anchors": ["pywt/_functions.py: central_frequency lines 120-157, scale2frequency, frequency2scale"]}
{"id": "C84", "title": "Gaussian derivative wavelets gaus1..gaus8", "statement": "gaus n, 1 <= n <= 8, is the n-th derivative of exp(-x^2) up to the sign (-1)^(n/2) and the factor that gives it unit energy; its moments of order 0 .. n-1 vanish and the one of order n does not; it is even or odd with n.", "quantifier": "n = 1..8, all real x", "why_tests_cant": "values at all real numbers, integrals over the line", "anchors": ["pywt/_extensions/c/cwt.template.c: gaus lines 71-105"]}
{"id": "C85", "title": "Complex Gaussian derivative wavelets cgau1..cgau8", "statement": "cgau n is, up to a positive factor, the n-th derivative of exp(-ix) exp(-x^2); it has unit energy and its moments of order 0 .. n-1 vanish.", "quantifier": "n = 1..8, all real x", "why_tests_cant": "values at all real numbers, integrals over the line", "anchors": ["pywt/_extensions/c/cwt.template.c: cgau lines 127-174"]}
{"id": "C86", "title": "Mexican hat and Morlet wavelets", "statement": "mexh is the negative second derivative of exp(-x^2/2) normalised to unit energy, with vanishing mean and first moment; morl is exp(-x^2/2) cos(5x), even and below its envelope.", "quantifier": "all real x", "why_tests_cant": "values at all real numbers, integrals over the line", "anchors": ["pywt/_extensions/c/cwt.template.c: mexh, morl lines 108-124"]}
{"id": "C87", "title": "Shannon, frequency B-spline and complex Morlet wavelets", "statement": "shan, fbsp and cmor are the documented functions, with sin(x)/x continued by 1 at 0, so that they are continuous; fbsp of order 1 is shan; their moduli; the modulus of cmor integrates to 1.", "quantifier": "all bandwidths > 0, all center frequencies, all orders >= 1, all real x", "why_tests_cant": "values at all real numbers, arbitrary parameters", "anchors": ["pywt/_extensions/c/cwt.template.c: shan, fbsp, cmor lines 177-224"]}
{"id": "C88", "title": "ContinuousWavelet.wavefun", "statement": "For every continuous wavelet that can be created, wavefun(level, length) returns the grid of 2^level (or length) equidistant points from lower_bound to upper_bound and the values of the documented function there; a negative length raises ValueError, no points RuntimeError. A name cmorB-C or shanB-C gives bandwidth B and center frequency C, fbspM-B-C also order M; without parameters the values of wavelets.c are the attributes.", "quantifier": "all names, levels and lengths", "why_tests_cant": "infinitely many names and lengths", "anchors": ["pywt/_extensions/_pywt.pyx: ContinuousWavelet, wavefun lines 873-979", "_cwt.pyx: cwt_psi_single", "pywt/_extensions/_pywt.pyx: lines 731-769; pywt/_extensions/c/wavelets.c: lines 355-503"]}
{"id": "C89", "title": "Symmetry attribute of the continuous wavelets", "statement": "The attribute symmetry states the symmetry of the samples returned by wavefun.", "quantifier": "all names, levels and lengths", "why_tests_cant": "infinitely many names and lengths", "anchors": ["pywt/_extensions/c/wavelets.c: continuous_wavelet lines 355-503"]}
{"id": "C90", "title": "central_frequency of the continuous wavelets", "statement": "For every continuous wavelet whose name gives positive frequencies and every level >= 1, central_frequency is min(k, n-k) over the width of the support, where n = 2^level and k is the first largest entry, the mean excluded, of the absolute discrete Fourier transform of the documented function sampled at n points; it is positive and at most half the sampling rate. Level 0 raises AssertionError.", "quantifier": "all names and levels", "why_tests_cant": "infinitely many names and levels, real-valued spectra", "anchors": ["pywt/_functions.py: central_frequency lines 140-159", "pywt/_extensions/_pywt.pyx: ContinuousWavelet.wavefun"]}
{"id": "C91", "title": "cwt of a wavelet given by its name", "statement": "For every continuous wavelet whose name gives positive frequencies, cwt returns for each scale and index the correlation of the data with the differences of the stretched integral of the documented function sampled at 1024 points, and the frequencies central_frequency / scale / period; the conv and fft methods agree over the complex numbers for all data, scales and axes; real data and a real wavelet give real results. Too small or non-positive scales and other methods raise ValueError, zero frequencies TypeError.", "quantifier": "all names, data, scales, axes, periods", "why_tests_cant": "infinitely many inputs; the agreement of the methods needs roots of unity of every order", "anchors": ["pywt/_cwt.py: cwt lines 103-195", "pywt/_functions.py", "pywt/_extensions/_pywt.pyx lines 320-326"]}
{"id": "C92", "title": "iswtn rejects axes outside the data", "statement": "iswtn raises an exception when an axis is not in [-ndim, ndim).", "quantifier": "all coefficients and lists of axes", "why_tests_cant": "all dimensions and axes", "anchors": ["pywt/_swt.py: iswtn lines 742-745, 791-819"]}
{"id": "C93", "title": "Vanishing moments and polynomial signals", "statement": "If the first p moments of the high-pass filter vanish and the data are the values of a polynomial of degree < p, all detail coefficients of dwt, and of every level of wavedec, whose samples lie inside the signal are zero, and the approximation is a polynomial of degree < p there. A constant gives zero details at every index and level in all modes but zero and antisymmetric, and in swt; a straight line gives zero details everywhere in the modes smooth and antireflect.", "quantifier": "all banks, polynomials, lengths, modes and levels", "why_tests_cant": "all degrees, lengths and levels at once, exactly", "anchors": ["pywt/_extensions/c/convolution.template.c", "pywt/_extensions/c/wt.template.c", "pywt/_multilevel.py: wavedec", "pywt/_swt.py: swt"]}
{"id": "C94", "title": "vanishing_moments_psi of the built-in wavelets", "statement": "For every haar, db, sym, coif and bior wavelet the moments of dec_hi of order below vanishing_moments_psi vanish up to the precision of the tables, and the next one does not. False for rbio, which keeps the attribute of bior although the filters are exchanged (there the number is vanishing_moments_phi), and for bior5.5, which has six vanishing moments and announces five.", "quantifier": "all built-in wavelets and orders", "why_tests_cant": "double precision cannot tell high moments from rounding", "anchors": ["pywt/_extensions/c/wavelets.c: discrete_wavelet lines 40-330", "pywt/_extensions/c/wavelets_coeffs.template.h"]}
{"id": "C95", "title": "Element types of the results", "statement": "dwt, wavedec (level >= 1) and dwtn return arrays of the supported type (float32, float64, complex64, complex128) nearest to the type of the data; idwt, waverec, idwtn and iswt return a supported type which is complex if and only if one of the arrays is, and is the common nearest type or the double precision one; waverec of wavedec has the nearest type; cwt is complex if and only if the wavelet or the data are; idwt_axis never reads an array as one of another type. False: a list of complex numbers is accepted by every transform (dwt, idwt, cwt raise TypeError); the type is supported for level=0; idwt and idwtn agree (half and single precision).", "quantifier": "all element types, levels, numbers of axes and sets of bands", "why_tests_cant": "all combinations of types over all levels and bands", "anchors": ["pywt/_extensions/_pywt.pyx: _check_dtype", "pywt/_dwt.py: dwt, idwt", "pywt/_multidim.py: dwtn lines 119-190, idwtn lines 219-311", "pywt/_extensions/_dwt.pyx: idwt_axis", "pywt/_swt.py: iswt", "pywt/_cwt.py: cwt"]}
{"id": "C96", "title": "iswtn and iswt2 of arrays of mixed types", "statement": "With coefficient arrays of mixed element types iswtn and iswt2 compute the inverse transform of the values. True if the approximation is complex or if no level without complex details follows one with complex details; false otherwise: the common type of a level is computed from the type of the approximation handed in instead of the type of the current output, so the imaginary part built up so far is dropped.", "quantifier": "all coefficient lists, types, wavelets, axes", "why_tests_cant": "mixtures of types per level are not tested", "anchors": ["pywt/_swt.py: iswt2 lines 489-494", "pywt/_swt.py: iswtn lines 774-778"]}
{"id": "C97", "title": "Packing arrays of mixed types", "statement": "coeffs_to_array and ravel_coeffs keep the values of all arrays if every detail (and the padding) fits the element type of the approximation; otherwise the details are truncated (integer approximation) or lose their imaginary parts, and array_to_coeffs and unravel_coeffs do not give the list back.", "quantifier": "all coefficient lists and types", "why_tests_cant": "values and types vary independently", "anchors": ["pywt/_multilevel.py: coeffs_to_array lines 763-765", "pywt/_multilevel.py: ravel_coeffs line 1086"]}
{"id": "C98", "title": "Assigning data to a packet node", "statement": "Assigning an array to a node of a packet tree keeps the values and converts to the nearest supported type. Assigning a list or another node, which the documentation allows, keeps real values (as float64) but drops imaginary parts, because the type is looked up on the object handed in and not on its data.", "quantifier": "all arrays and types", "why_tests_cant": "complex trees assigned node by node are not tested", "anchors": ["pywt/_wavelet_packets.py: BaseNode.__setitem__ lines 296-304"]}
{"id": "C99", "title": "Copies and pickles", "statement": "Copying or pickling an object gives an object that behaves like the original. Wavelet objects keep name and filters, hence all transforms, and copies of custom wavelets are identical; built-in wavelets lose number, family, the orthogonal and biorthogonal flags and the vanishing moments, so wavefun returns five arrays instead of three for orthogonal wavelets and wavelet functions of the other sign for biorthogonal ones whose number of moments is not 1 modulo 4. Continuous wavelets lose frequencies set after construction. Packets lose the axis (axes) and all subnodes, so the copy of a packet along another axis or with changed coefficients gives other nodes and another reconstruction.", "quantifier": "all wavelets, filters, packets and states of packets", "why_tests_cant": "every object and every history of changes would have to be copied and compared", "anchors": ["pywt/_extensions/_pywt.pyx: Wavelet.__reduce__ lines 433-434", "pywt/_extensions/_pywt.pyx: ContinuousWavelet.__reduce__ lines 780-781", "pywt/_wavelet_packets.py: WaveletPacket.__reduce__ lines 727-729, WaveletPacket2D.__reduce__ lines 853-855"]}
{"id": "C100", "title": "Forward rounding error of the transforms", "statement": "In floating-point arithmetic (standard model, relative error u per operation, absolute error eta per product) every coefficient of dwt and every sample of idwt differs from the exact one by at most ((1+u)^(F+p+q)-1) times the same transform of the absolute values, plus F (1+u)^(F+p+q) eta, where F is the filter length and p, q are the relative errors already in the filters and data; the coefficients of level j of wavedec by the j-fold bound. Evaluated in the order of summation of the code.", "quantifier": "all arithmetics of the standard model, filters, data, lengths, levels, modes other than smooth and antireflect (idwt: all modes)", "why_tests_cant": "rounding errors depend on all bits of all data; tests compare with fixed tolerances", "anchors": ["pywt/_extensions/c/convolution.template.c: downsampling_convolution_periodization lines 44-124, downsampling_convolution lines 127-470, upsampling_convolution_valid_sf_periodization lines 527-628, upsampling_convolution_valid_sf lines 639-668", "pywt/_extensions/c/wt.template.c: dec_a lines 318-332, dec_d lines 337-350, idwt lines 393-445", "pywt/_multilevel.py: wavedec lines 49-109, waverec lines 112-176"]}
{"id": "C101", "title": "Round trip in floating point", "statement": "waverec(wavedec(x, level)) in floating-point arithmetic differs from x in every sample by at most the error of 2*level steps, (G^(2l)-1) K^(2l) max|x| + F G eta (1 + GK + ... + (GK)^(2l-1)), where G = (1+u)^(F+p) and K bounds the absolute sums of the filters.", "quantifier": "all arithmetics of the standard model, perfect-reconstruction filters, data, lengths, levels, modes other than smooth and antireflect", "why_tests_cant": "tests compare with fixed tolerances on fixed data", "anchors": ["pywt/_extensions/c/convolution.template.c: downsampling_convolution_periodization lines 44-124, downsampling_convolution lines 127-470, upsampling_convolution_valid_sf_periodization lines 527-628, upsampling_convolution_valid_sf lines 639-668", "pywt/_extensions/c/wt.template.c: dec_a lines 318-332, dec_d lines 337-350, idwt lines 393-445", "pywt/_multilevel.py: wavedec lines 49-109, waverec lines 112-176"]}
{"id": "C102", "title": "Round trip of the built-in wavelets in floating point", "statement": "For every built-in wavelet, idwt(dwt(x)) computed in floating point with the tables rounded to that format differs from x by at most (residual of the table + rounding) * max|x|; in double precision the rounding part is at most 2e-12 max|x| (plus 1000 times the underflow threshold).", "quantifier": "all built-in discrete wavelets, data, lengths, modes other than smooth and antireflect", "why_tests_cant": "tests use random data and a tolerance of 1e-10 or so", "anchors": ["pywt/_extensions/c/convolution.template.c: downsampling_convolution_periodization lines 44-124, downsampling_convolution lines 127-470, upsampling_convolution_valid_sf_periodization lines 527-628, upsampling_convolution_valid_sf lines 639-668", "pywt/_extensions/c/wt.template.c: dec_a lines 318-332, dec_d lines 337-350, idwt lines 393-445", "pywt/_multilevel.py: wavedec lines 49-109, waverec lines 112-176", "pywt/_extensions/c/wavelets_coeffs.template.h"]}
{"id": "C103", "title": "The periodized transforms are bijections", "statement": "In mode periodization with a perfect-reconstruction bank, decomposing the reconstruction of arbitrary coefficients gives these coefficients back: dwt(idwt(cA, cD)) = (cA, cD) for any cA, cD of equal length, wavedec(waverec(c)) = c whenever each detail is as long as the approximation it is combined with, and likewise dwtn(idwtn(D)) = D and wavedecn(waverecn(c)) = c. Hence dwt is injective on even lengths, and idwt of an orthonormal bank preserves energy.", "quantifier": "all commutative rings, banks with perfect reconstruction, coefficients, lengths (also shorter than the filter), numbers of levels, dimensions, per-axis wavelets", "why_tests_cant": "the suite checks reconstruction of data only; coefficients that are not the transform of some data are a different statement, true here only because a one-sided inverse of circular convolution matrices is two-sided", "anchors": ["pywt/_extensions/c/convolution.template.c: downsampling_convolution_periodization lines 44-124, upsampling_convolution_valid_sf_periodization lines 527-628", "pywt/_multilevel.py: wavedec lines 49-109, waverec lines 112-176", "pywt/_multidim.py: dwtn lines 119-190, idwtn lines 219-311", "pywt/_multilevel.py: wavedecn lines 360-442, waverecn lines 461-578"]}
{"id": "C104", "title": "Inner products with dual wavelets", "statement": "In mode periodization, if the decomposition filters of w' are the time-reversed reconstruction filters of w, then the sum of the inner products of the coefficients of x by w and of y by w' is the inner product of x and y, for wavedec, dwtn and wavedecn; an orthonormal wavelet is its own dual, so its transforms are isometries.", "quantifier": "all commutative rings, pairs of dual banks, data of admissible sizes, levels, dimensions, per-axis wavelets", "why_tests_cant": "tests check energies of a few random arrays for a few orthogonal wavelets", "anchors": ["pywt/_extensions/c/convolution.template.c: downsampling_convolution_periodization lines 44-124, upsampling_convolution_valid_sf_periodization lines 527-628", "pywt/_multilevel.py: wavedec lines 49-109, waverec lines 112-176", "pywt/_multidim.py: dwtn lines 119-190, idwtn lines 219-311", "pywt/_multilevel.py: wavedecn lines 360-442, waverecn lines 461-578"]}
{"id": "C105", "title": "Shifts in several dimensions", "statement": "In mode periodization, rolling the data by 2s along one axis of even length rolls every band of dwtn by s along this axis, and rolling by 2^N s rolls the coefficients of level j of wavedecn accordingly; rolling along an axis that is not transformed rolls every band by the same amount, in any mode.", "quantifier": "all commutative rings, banks, arrays, axes, amounts of shift, levels", "why_tests_cant": "shifts by every amount along every axis are infinitely many; the suite tests no shifts of n-D data", "anchors": ["pywt/_extensions/c/convolution.template.c: downsampling_convolution_periodization lines 44-124, upsampling_convolution_valid_sf_periodization lines 527-628", "pywt/_multidim.py: dwtn lines 119-190, idwtn lines 219-311", "pywt/_multilevel.py: wavedecn lines 360-442, waverecn lines 461-578"]}
{"id": "C106", "title": "Walks over packet trees", "statement": "walk(decompose=False) calls its function on a node and then on the existing subnodes in the order of PARTS, below exactly those nodes for which the function returned True, and changes nothing; walk_depth(decompose=False) calls it on exactly the existing nodes at or below the node, once each, subnodes first. With decompose=True on a packet of data with a perfect-reconstruction bank and levels up to maxlevel, both succeed and visit every word of at most maxlevel letters (walk: those whose proper prefixes were all accepted), walk in pre-order, walk_depth in post-order, and leave the stored data as it was.", "quantifier": "all trees reached by any sequence of operations (without decomposition); all packets, data, levels, earlier reading operations and decision functions (with decomposition)", "why_tests_cant": "the suite walks two fixed trees with one fixed callback; trees, histories and callbacks are unbounded", "anchors": ["pywt/_wavelet_packets.py: walk lines 358-383, walk_depth lines 385-409, get_subnode lines 158-180"]}
{"id": "C107", "title": "Test signals have the requested length", "statement": "demo_signal(name, n) returns an array of length n for every documented name and every n >= 1 (Gabor: 512, sineoneoverx: 1024, n None), names are case-insensitive, other requests raise ValueError, and the samples are those of the named functions on the grid k/n. False in general: Chirps works only for multiples of 8 and 8..15, Riemann fails when the rounded square root squared exceeds n (e.g. 512), Piece-Regular and Piece-Polynomial fail for all multiples of 5; in double precision the grid can have one sample too many (n = 49), HypChirps can fail (n = 7) and samples can be NaN (Doppler 49, Chirps 8).", "quantifier": "all names and all n (double precision: n <= 2^49)", "why_tests_cant": "the suite compares each signal with one stored array of one length; the failing lengths are infinitely many and depend on rounding", "anchors": ["pywt/data/_wavelab_signals.py: demo_signal lines 29-267"]}
{"id": "C108", "title": "Packing rejects or preserves", "statement": "coeffs_to_array either raises or returns an array from which array_to_coeffs recovers the given coefficients. Errors: a later item that is not a dictionary (IndexError for an array, TypeError otherwise), items that do not have the format of the first detail (wavedec, wavedec2), a missing approximation. False in general: details whose shapes are inconsistent with each other are accepted; one detail can overwrite another, be repeated along an axis that is not transformed, or leave uninitialised elements in the result although padding=None promises tight packing.", "quantifier": "all coefficient lists, axes and padding values (errors); refutations by counterexample", "why_tests_cant": "the suite packs only coefficients produced by the transforms; the lists that are silently corrupted have shapes no transform produces", "anchors": ["pywt/_multilevel.py: coeffs_to_array lines 674-798, _prepare_coeffs_axes lines 628-671, array_to_coeffs lines 801-887"]}
{"id": "C109", "title": "Thresholding of complex data", "statement": "For complex data and value > 0, soft thresholding with substitute 0 returns the point p on the segment from 0 to z with |p| = max(|z|-v, 0); p is the only minimiser of |u-z|^2/2 + v|u| over all complex u; the map does not increase distances. Hard thresholding keeps z iff |z| >= v and minimises |u-z|^2/2 + v^2/2 [u != 0]. Garrote gives |p||z| = |z|^2 - v^2 above v and lies between soft and |z|. All commute with multiplication by a phase and agree with the real functions on real data; a non-zero substitute replaces exactly the elements with |z| < v; 'greater', 'less' and unknown modes raise ValueError. threshold_firm interpolates |z| linearly between the thresholds.", "quantifier": "all lists of complex numbers, thresholds, substitutes, modes and angles", "why_tests_cant": "optimality and the contraction are statements about all points of the plane; the suite checks a few complex values", "anchors": ["pywt/_thresholding.py: soft, nn_garrote, hard, greater, less, threshold, threshold_firm"]}
{"id": "C110", "title": "threshold_firm as documented", "statement": "If value_high is infinity, threshold_firm is soft thresholding; between the thresholds its value is x * value_high * (1 - value_low/x) / (value_high - value_low). Both are false: an infinite value_high makes every result nan, and the formula holds for x >= 0 only. Proved: the distance of firm and soft thresholding is max(|x| - low, 0) * low / (high - low), so that the limit is soft thresholding.", "quantifier": "all arrays and thresholds", "why_tests_cant": "concerns all data and a limit; the suite uses finite thresholds", "anchors": ["pywt/_thresholding.py: threshold_firm lines 173-249"]}
{"id": "C111", "title": "Pictures of packet bases", "statement": "wavedec_keys and wavedec2_keys give the leaves of a tree: every path of the full depth has exactly one key as a prefix. For the leaves of any tree and sizes divisible by 2^depth, the boxes drawn for the keys cut the picture into rectangles without gaps or overlaps and each label is in the middle of its box; likewise the (levels+1)^2 boxes of fswavedecn. For sizes that are not divisible there are gaps, and the key of the root fails or takes the size of the previous key.", "quantifier": "all depths, key lists and sizes", "why_tests_cant": "the drawing helpers have no tests; the claim concerns every tree and every size", "anchors": ["pywt/_doc_utils.py: wavedec_keys, wavedec2_keys, _box, _2d_wp_basis_coords, _2d_fswavedecn_coords lines 13-129"]}
{"id": "C112", "title": "Time reversal", "statement": "Reading the signal and all filters backwards reverses the coefficients of dwt and wavedec (even lengths) and the output of idwt (all lengths), in every mode; padding commutes with reversal. For filters of linear phase (haar, db1, bior1.x, bior3.x, rbio1.x, rbio3.x) reversing the signal reverses the coefficients and changes the sign of the details. For odd lengths the claim is false.", "quantifier": "all signals, filter banks, modes and levels", "why_tests_cant": "a symmetry for all signals and filters; the suite has no reversal tests", "anchors": ["pywt/_extensions/c/convolution.template.c: downsampling_convolution, upsampling_convolution_valid_sf", "pywt/_dwt.py: dwt, idwt, pad", "pywt/_multilevel.py: wavedec"]}
{"id": "C113", "title": "A coefficient depends on one window of the signal", "statement": "The coefficient k of level j of wavedec depends only on the samples 2^j k - (2^j - 1)(F - 2) .. 2^j (k + 1) - 1: if this window is inside the signal, any two signals (of any lengths, in any modes except periodization) with equal windows at positions that differ by 2^j s have equal coefficients k and k + s; in zero mode also at the borders.", "quantifier": "all signals, lengths, modes, levels, positions", "why_tests_cant": "quantifies over all pairs of signals", "anchors": ["pywt/_multilevel.py: wavedec", "pywt/_extensions/c/convolution.template.c: downsampling_convolution"]}
{"id": "C114", "title": "The attribute symmetry of discrete wavelets", "statement": "Wavelet.symmetry is 'symmetric' exactly if the four filters equal their mirror images up to a sign. True of all built-in wavelets except haar and db1, which are symmetric and are called asymmetric.", "quantifier": "all built-in discrete wavelets, all centres of symmetry", "why_tests_cant": "the suite only compares the attribute of a few wavelets with constants", "anchors": ["pywt/_extensions/c/wavelets.c: discrete_wavelet lines 50-353", "pywt/_extensions/_pywt.pyx: Wavelet.symmetry lines 498-510", "pywt/_extensions/c/wavelets_coeffs.template.h"]}
{"id": "C115", "title": "Pictures of the extension modes", "statement": "boundary_mode_subplot draws the extension of the signal over five times its length, the signal itself in red, and bars at the axes and centres of symmetry (reflect, antireflect with symw=True; symmetric, antisymmetric with symw=False), between the copies of the signal (periodic, periodization) or around the signal (smooth, constant, zero). False: in periodization mode the last sample of a signal of even length is not red; with the default symw the bars of mode symmetric are not axes of symmetry.", "quantifier": "all signals and modes", "why_tests_cant": "the drawing helper has no tests; symmetry concerns all positions", "anchors": ["pywt/_doc_utils.py: boundary_mode_subplot lines 154-190"]}
{"id": "C116", "title": "Changes of coefficients and changes of data", "statement": "For an orthonormal bank in periodization mode (length divisible by 2^N): wavedec and waverec keep the sum of the squares of differences. waverec of changed coefficients of the same shape has exactly these as its coefficients, and its distance to the original data is the distance of the coefficients. The same holds for wavedecn and waverecn along any axes (every transformed length divisible by 2^N).", "quantifier": "all commutative rings, orthonormal banks, data, numbers of levels and changes", "why_tests_cant": "the suite only checks perfect reconstruction of unchanged coefficients; the change is arbitrary", "anchors": ["pywt/_multilevel.py: wavedec lines 49-109, waverec lines 112-176, wavedecn lines 360-442, waverecn lines 461-578", "pywt/_extensions/c/wt.template.c", "pywt/_extensions/c/convolution.template.c: downsampling_convolution_periodization, upsampling_convolution_valid_sf_periodization", "pywt/_multidim.py: dwtn, idwtn"]}
{"id": "C117", "title": "What denoising by thresholding minimises", "statement": "wavedec, thresholding of the details and waverec (orthonormal bank, periodization): with mode 'soft' the result minimises |x - y|^2 / 2 + v * (sum of the absolute values of the details of y) over all data y of the same length, by a margin of |y - z|^2 / 2, and is a contraction; with mode 'hard' it minimises |x - y|^2 + v^2 * (number of details of y that are not zero) and the error is the sum of the squares of the removed details. The same holds for wavedecn, threshold of every detail array, waverecn.", "quantifier": "all orthonormal banks and data over the real numbers, all thresholds, all competing data", "why_tests_cant": "a minimum over all data", "anchors": ["pywt/_thresholding.py: soft lines 16-30, hard lines 51-54, threshold lines 81-170", "pywt/_multilevel.py: wavedec lines 49-109, waverec lines 112-176", "pywt/_multilevel.py: wavedecn lines 360-442, waverecn lines 461-578"]}
{"id": "C118", "title": "decompose of a node without data", "statement": "decompose of a node without data keeps the subnodes it has (with the data given to them by item assignment) and makes the missing ones without data, one level deeper. True of WaveletPacket; in WaveletPacket2D and WaveletPacketND all subnodes are replaced and the data is lost. A node whose level is the maximum level is refused with ValueError, one without any maximum level with TypeError (also by get_level).", "quantifier": "all states of the tree, nodes, wavelets, modes, axes", "why_tests_cant": "the suite never decomposes an empty node that has subnodes", "anchors": ["pywt/_wavelet_packets.py: decompose lines 171-187, _decompose lines 432-450, 494-510, 646-659, _create_subnode_base lines 92-99, get_level lines 750-806"]}
{"id": "C119", "title": "Sums of coefficients: the mean", "statement": "Periodization, length a multiple of 2^N: if the even and the odd taps of dec_lo both sum to s, the approximation of N levels sums to s^N times the sum of the data. swt: the approximation of level j sums to (norm * sum(dec_lo))^j times the sum of the data, the details of level j+1 to norm * sum(dec_hi) times the approximation's sum. An orthonormal real bank whose dec_lo sums to sqrt(2) has even and odd tap sums sqrt(2)/2, and dec_hi sums to 0. With such a bank, denoising by thresholding the details keeps the mean of the data. n-D: wavedecn multiplies the sum of the data by (product of the axes' s)^N, and thresholding the details of n-D data keeps its mean. swtn: every sub-band of level j sums to the product over the axes of the sums of the filters its key names, times (product of the sums of dec_lo)^(j-1), times the sum of the data.", "quantifier": "all banks and data over any commutative ring (wavedec, swt); all orthonormal banks, data and thresholds over the real numbers (taps, denoising)", "why_tests_cant": "all data, lengths and levels", "anchors": ["pywt/_multilevel.py: wavedec lines 49-109, waverec lines 112-176", "pywt/_extensions/c/convolution.template.c: downsampling_convolution_periodization lines 44-124", "pywt/_swt.py: swt lines 28-153", "pywt/_thresholding.py: threshold lines 81-170", "pywt/_multilevel.py: wavedecn lines 360-442, waverecn lines 461-578", "pywt/_swt.py: swtn lines 540-677"]}
{"id": "C120", "title": "Inner products of wavelet packets", "statement": "Orthonormal bank, periodization, sizes divisible by 2^M: for two packets and any complete tree of depth at most M, the inner products of the data of the nodes at the leaves add up to the inner product of the two inputs (so every choice of leaves is an orthonormal basis and energies add up). WaveletPacket, WaveletPacket2D and WaveletPacketND, after any history of reading.", "quantifier": "all orthonormal banks and data over any commutative ring, all complete trees, all histories of reading", "why_tests_cant": "all trees, data and histories", "anchors": ["pywt/_wavelet_packets.py: __getitem__ lines 234-270, decompose lines 171-187, _decompose lines 432-450, 494-510, 646-659"]}
{"id": "C121", "title": "What the stationary transforms refuse", "statement": "iswtn of an empty list raises IndexError; with an empty dictionary last, ValueError; with a 0-d or non-empty 1-d array last, TypeError, with an array of no rows, ValueError. If the first dictionary lacks the key 'a'*n, n the longest key of the last dictionary, KeyError. Repeated axes, a number of axes other than n, or a number of wavelets other than 1 and n raise ValueError. Details of different shapes at the first level of trimmed coefficients raise RuntimeError. In all these cases the caller's list is unchanged. swtn: 0-d data raises ValueError, an axis outside the data AxisError, repeated axes or a wrong number of wavelets ValueError. swt2: other than two axes, equal axes or fewer than 2 dimensions raise ValueError, an axis outside AxisError, two names of one axis ValueError. swt: an axis outside raises AxisError. iswt: an empty list raises IndexError; for 1-d or 0-d coefficients an axis other than 0 and -1 AxisError, 0-d coefficients otherwise ValueError.", "quantifier": "all coefficient lists, wavelets, axes and norms", "why_tests_cant": "all argument combinations", "anchors": ["pywt/_swt.py: iswtn lines 719-722, 737-758, 768-784", "pywt/_utils.py: _wavelets_per_axis lines 37-71", "pywt/_swt.py: swt lines 129-153, iswt lines 187-215, swt2 lines 358-378, swtn lines 632-650"]}
{"id": "C122", "title": "What the discrete transforms refuse", "statement": "dwt: an axis outside the data raises AxisError; no samples, or one sample with reflect or antireflect, ValueError. idwt: both arrays None raises ValueError, an axis outside AxisError, unequal lengths ValueError. dwtn: 0-d data or a number of wavelets or modes other than 1 and the number of axes raises ValueError. idwtn: no arrays, a key with a letter other than a and d, keys of different lengths or arrays of different shapes raise ValueError. wavedecn: 0-d data raises ValueError; an axis outside AxisError; no axes, a wrong number of wavelets or a negative level ValueError. wavedec2: fewer than 2 dimensions, other than two axes, equal axes, a wrong number of wavelets or a negative level raise ValueError, an axis outside AxisError. waverecn: a None among the details, or bad keys, raises ValueError. waverec2: equal axes or, in the first tuple of details, arrays of different shapes raise ValueError; three None in the first tuple beside a missing or less than two-dimensional approximation IndexError; other than two axes ValueError; arrays of different shapes in one tuple at any level give no result; one level whose arrays have the shape of the approximation is idwt2, arrays None or not. wavedecn_shapes: an empty shape, a repeated axis, no axes, a wrong number of wavelets or modes or a negative level raise ValueError, an axis outside AxisError. dwtn_max_level: an empty shape, a repeated axis, no axes or a wrong number of wavelets raise ValueError, an axis outside AxisError.", "quantifier": "all data, wavelets, modes, axes and levels", "why_tests_cant": "all argument combinations", "anchors": ["pywt/_dwt.py: dwt lines 163-188, idwt lines 237-292", "pywt/_multidim.py: dwtn lines 119-190, _fix_coeffs lines 193-216, idwtn lines 219-311", "pywt/_multilevel.py: wavedec2 lines 179-253, _prep_axes_wavedecn and wavedecn lines 340-442, waverecn lines 461-578", "pywt/_utils.py: lines 37-104", "pywt/_multilevel.py: waverec2 lines 256-337, wavedecn_shapes lines 890-945, dwtn_max_level lines 991-1031"]}
