{
 "claims": [
  {
   "property": "C01",
   "status": "proved",
   "theorems": [
    "C01_dwt_lengths",
    "C01_coeff_len"
   ],
   "note": "All modes, lengths and even filter lengths; the length formula also for odd F."
  },
  {
   "property": "C02",
   "status": "proved",
   "theorems": [
    "C02_dwt_is_convolution",
    "C02_kernel"
   ],
   "note": "dwt level (even F, as every Wavelet object has) and kernel level (any F, any step)."
  },
  {
   "property": "C03",
   "status": "proved",
   "theorems": [
    "C03_dwt_periodization",
    "C03_kernel"
   ],
   "note": ""
  },
  {
   "property": "C04",
   "status": "proved",
   "theorems": [
    "C04_dwt_safe",
    "C04_idwt_safe",
    "C04_wavedec_safe"
   ],
   "note": ""
  },
  {
   "property": "C05",
   "status": "proved",
   "theorems": [
    "C05_perfect_reconstruction_even"
   ],
   "note": ""
  },
  {
   "property": "C06",
   "status": "proved",
   "theorems": [
    "C06_perfect_reconstruction_periodization_odd"
   ],
   "note": ""
  },
  {
   "property": "C07",
   "status": "proved",
   "theorems": [
    "C07_perfect_reconstruction_odd"
   ],
   "note": ""
  },
  {
   "property": "C08",
   "status": "proved",
   "theorems": [
    "C08_dwt_linear",
    "C08_idwt_linear"
   ],
   "note": ""
  },
  {
   "property": "C09",
   "status": "proved",
   "theorems": [
    "C09_idwt_missing",
    "C09_idwt_split"
   ],
   "note": ""
  },
  {
   "property": "C10",
   "status": "proved",
   "theorems": [
    "C10_downcoef_wavedec",
    "C10_downcoef_iterated",
    "C10_downcoef_level"
   ],
   "note": ""
  },
  {
   "property": "C11",
   "status": "proved",
   "theorems": [
    "C11_upcoef",
    "C11_upcoef_take",
    "C11_idwt_interior"
   ],
   "note": ""
  },
  {
   "property": "C12",
   "status": "proved",
   "theorems": [
    "C12_waverec_wavedec",
    "C12_levels",
    "C12_too_short"
   ],
   "note": ""
  },
  {
   "property": "C13",
   "status": "proved",
   "theorems": [
    "C13_wavedec_structure",
    "C13_wavedec_default_level",
    "C13_wavedec_negative"
   ],
   "note": ""
  },
  {
   "property": "C14",
   "status": "proved",
   "theorems": [
    "C14_dwt_max_level",
    "C14_dwt_max_level_zero",
    "C14_dwt_max_level_mono",
    "C14_dwtn_max_level",
    "C14_wavedecn_default_level"
   ],
   "note": "dwt_max_level exactly (integer formula of the C code) and dwtn_max_level."
  },
  {
   "property": "C15",
   "status": "proved",
   "theorems": [
    "C15_swt_max_level",
    "C15_swt_guard",
    "C15_swt_default",
    "C15_swt_safe",
    "C15_c_swt_guard"
   ],
   "note": ""
  },
  {
   "property": "C16",
   "status": "proved",
   "theorems": [
    "C16_swt_is_circular_convolution"
   ],
   "note": ""
  },
  {
   "property": "C17",
   "status": "proved",
   "theorems": [
    "C17_swt_shift_invariant"
   ],
   "note": ""
  },
  {
   "property": "C18",
   "status": "proved",
   "theorems": [
    "C18_iswt_swt"
   ],
   "note": ""
  },
  {
   "property": "C19",
   "status": "proved",
   "theorems": [
    "C19_dwt_energy",
    "C19_swtn_energy",
    "C19_swt_energy"
   ],
   "note": ""
  },
  {
   "property": "C20",
   "status": "proved",
   "theorems": [
    "C20_swt_layout"
   ],
   "note": ""
  },
  {
   "property": "C21",
   "status": "proved",
   "theorems": [
    "C21_dwt_line_by_line",
    "C21_idwt_line_by_line",
    "C21_axis_kernel_any_layout",
    "C21_idwt_axis_any_layout",
    "C21_swt_line_by_line"
   ],
   "note": "Any shape, strides, offsets and axis; C layer and Python layer. The write-once part: every cell of the output gets its value, all other memory is unchanged."
  },
  {
   "property": "C22",
   "status": "proved",
   "theorems": [
    "C22_axis_order",
    "C22_dwtn_bands",
    "C22_axis_names"
   ],
   "note": "Distinct axes; per-axis wavelets and modes permuted along. Sub-band formula also for repeated axes."
  },
  {
   "property": "C23",
   "status": "partial",
   "theorems": [
    "C23_idwtn_dwtn",
    "C23_dwt2_is_dwtn",
    "C23_idwt2_dwt2",
    "C23_repeated_axes_refuted",
    "C23_axis_names"
   ],
   "note": "Proved for distinct axes (any number of dimensions, modes and wavelets per axis). For repeated axes the round trip is false in periodization mode: _refuted."
  },
  {
   "property": "C24",
   "status": "proved",
   "theorems": [
    "C24_waverecn_wavedecn",
    "C24_wavedecn_bands"
   ],
   "note": "Any number of dimensions, distinct axes, wavelet and mode per axis, any level. Repeated axes are rejected unless hidden by a negative index (C57)."
  },
  {
   "property": "C25",
   "status": "proved",
   "theorems": [
    "C25_round_trip",
    "C25_padded",
    "C25_tight",
    "C25_shape",
    "C25_wavedec2",
    "C25_wavedec",
    "C25_of_wavedecn",
    "C25_of_wavedec"
   ],
   "note": "All three formats, any number of dimensions, axes and levels; every output of wavedec and wavedecn meets the hypotheses. The conversion to the dtype of the approximation is not modelled."
  },
  {
   "property": "C26",
   "status": "proved",
   "theorems": [
    "C26_lengths",
    "C26_round_trip",
    "C26_wavedec",
    "C26_wavedec2"
   ],
   "note": "Dictionaries come back with the same items in sorted key order (Python dictionaries compare equal)."
  },
  {
   "property": "C27",
   "status": "partial",
   "theorems": [
    "C27_shapes_explicit_level_partial",
    "C27_size_partial",
    "C27_default_level_partial",
    "C27_default_level_refuted"
   ],
   "note": "Explicit level and size proved; default level proved for one wavelet length, refuted for different filter lengths per axis: shape (64, 8), dec_lens (16, 2)."
  },
  {
   "property": "C28",
   "status": "proved",
   "theorems": [
    "C28_set_all",
    "C28_round_trip",
    "C28_bands",
    "C28_partition",
    "C28_set",
    "C28_detail_keys",
    "C28_approx",
    "C28_bad_keys",
    "C28_detail_keys_sorted"
   ],
   "note": "Round trip, content of every sub-band, partition of the array, assignment to sub-bands, detail_keys, approx and rejection of bad integer keys, for all shapes, distinct axes, levels, wavelets and modes per axis. The setter of coeffs and dtype warnings are not modelled."
  },
  {
   "property": "C29",
   "status": "proved",
   "theorems": [
    "C29_cases",
    "C29_soft",
    "C29_soft_magnitude",
    "C29_soft_odd",
    "C29_soft_monotone",
    "C29_soft_contraction",
    "C29_garrote",
    "C29_garrote_between",
    "C29_garrote_odd",
    "C29_garrote_monotone",
    "C29_hard_greater_less",
    "C29_hard_odd",
    "C29_hard_monotone",
    "C29_unknown_mode"
   ],
   "note": "Real data, exact rationals; v > 0 (v = 0 is C58). Complex data are not modelled."
  },
  {
   "property": "C30",
   "status": "partial",
   "theorems": [
    "C30_keeps_large_refuted",
    "C30_firm_partial",
    "C30_continuous_low",
    "C30_continuous_high",
    "C30_only_first_row_extrapolated",
    "C30_extrapolated_never_kept",
    "C30_bad_thresholds",
    "C30_total"
   ],
   "note": "Refuted: np.any(large_vals[0]) tests index values, so large values are extrapolated instead of kept when they occur only at index 0 of the first axis. _partial: exact behaviour otherwise. 0-d data not modelled."
  },
  {
   "property": "C31",
   "status": "partial",
   "theorems": [
    "C31_pad_partial",
    "C31_dwt_of_padded",
    "C31_right_width_zero_refuted",
    "C31_right_width_zero",
    "C31_smooth_one_sample_refuted",
    "C31_smooth_one_sample",
    "C31_negative_widths",
    "C31_unknown_mode",
    "C31_pad_nd_partial",
    "C31_widths",
    "C31_nd_bad_widths",
    "C31_nd_dwt_of_padded",
    "C31_nd_right_width_zero",
    "C31_nd_one_axis_refuted",
    "C31_nd_nothing",
    "C31_nd_empty_axis"
   ],
   "note": "1-D and n-D, all forms of pad_widths; the n-D transform of the padded array contains the transform of the array. Refuted for right width 0 (smooth, antisymmetric raise ValueError; in n-D so do widths 0 along one axis only) and for smooth with a single sample. Proved in all other cases (numpy.pad's own modes trusted as documented); periodization pads the array promoted to even sizes. 0-d arrays and fractional widths are not modelled."
  },
  {
   "property": "C32",
   "status": "partial",
   "theorems": [
    "C32_filter_bank_structure",
    "C32_qmf_flip",
    "C32_qmf_twice",
    "C32_perfect_reconstruction_partial",
    "C32_sum_condition_necessary",
    "C32_perfect_reconstruction_refuted",
    "C32_dual_filters_reconstruct"
   ],
   "note": "Structure and double qmf proved for all filters. Literal PR claim refuted: the code rescales h to sum sqrt 2, so h=(1,1,1,-1)/2, orthonormal to its even shifts but with sum 1, gives a bank with energy 2. PR proved when additionally (sum h)^2 = 2 (_partial), and that condition is shown necessary."
  },
  {
   "property": "C33",
   "status": "proved",
   "theorems": [
    "C33_db",
    "C33_sym",
    "C33_coif",
    "C33_haar",
    "C33_dmey",
    "C33_bior",
    "C33_rbio",
    "C33_accepts",
    "C33_inverse_twice",
    "C33_inverse_accepted",
    "C33_custom"
   ],
   "note": "For all tables of the right shape (tables_ok, shown for the built-in ones), all orders (unsigned int), also custom banks with zero padding of odd lengths."
  },
  {
   "property": "C34",
   "status": "proved",
   "theorems": [
    "C34_residual_bound",
    "C34_reconstruction_error",
    "C34_error_general",
    "C34_dmey_not_pr",
    "C34_dmey_energy"
   ],
   "note": "Exact decimals of the source tables; bounds on the sum of |<a,b(.+2k)>-delta|: db/haar 1e-17, sym 3e-11, coif 1.4e-16, bior/rbio 2.1e-12, dmey 6.7e-3. Error bound residual*gain*max|x| with gain 1 (4F+7 for smooth and antireflect). dmey is flagged orthogonal but misses PR by more than 1/500 (proved)."
  },
  {
   "property": "C35",
   "status": "partial",
   "theorems": [
    "C35_integers",
    "C35_names",
    "C35_strings_partial",
    "C35_total",
    "C35_errors_partial",
    "C35_exactly_nine_refuted"
   ],
   "note": "Integers 0..8 and the nine names proved. Refuted: six deprecated names and the names of other attributes (modes, from_object, dunders) are accepted; _partial gives exactly which strings. Non-string non-int arguments raise TypeError."
  },
  {
   "property": "C36",
   "status": "proved",
   "theorems": [
    "C36_packet",
    "C36_packet_2d",
    "C36_reconstruct_is_pure"
   ],
   "note": "1-D and 2-D packets after any sequence of accesses, decompositions, listings and reconstructions (with or without update); every node carries the band its path names. For WaveletPacketND see C62."
  },
  {
   "property": "C37",
   "status": "proved",
   "theorems": [
    "C37_nodes",
    "C37_lookup",
    "C37_found",
    "C37_set",
    "C37_del"
   ],
   "note": "All three classes, every sequence of operations from the root; deleted subtrees keep their old paths."
  },
  {
   "property": "C38",
   "status": "partial",
   "theorems": [
    "C38_get_level_partial",
    "C38_level_zero_refuted"
   ],
   "note": "Refuted for L = 0 in frequency order: the list is empty. Proved: natural order for L >= 0, frequency order for L >= 1 (Gray code starting with the all-a path)."
  },
  {
   "property": "C39",
   "status": "partial",
   "theorems": [
    "C39_read_refuted",
    "C39_full_trees_partial",
    "C39_reading_keeps_full_partial",
    "C39_objects_partial"
   ],
   "note": "Refuted: reading a missing sibling replaces a node the user assigned. Proved: true when every node has all its subnodes or none (which reading alone always produces); the objects themselves never change, the path is just redirected."
  },
  {
   "property": "C40",
   "status": "proved",
   "theorems": [
    "C40_mra_dwt",
    "C40_mra_swt",
    "C40_default_level",
    "C40_rejects",
    "C40_imra_of_terms"
   ],
   "note": "1-D data (mra); swt with level >= 1 and 2^level dividing the length; dwt for every mode and length the forward transform accepts. Exact arithmetic, sqrt(2) and 1/2 given as ring elements."
  },
  {
   "property": "C41",
   "status": "partial",
   "theorems": [
    "C41_imra_nothing",
    "C41_imra_pure",
    "C41_imra_value",
    "C41_imra2_refuted",
    "C41_imran_refuted",
    "C41_imra2_others_partial",
    "C41_imran_others_partial",
    "C41_imra2_value",
    "C41_imran_value"
   ],
   "note": "imra is pure. Refuted for imra2 and imran: the result is accumulated in the caller's first array; all other arrays are unchanged and the value returned is the sum."
  },
  {
   "property": "C42",
   "status": "partial",
   "theorems": [
    "C42_iswtn_refuted",
    "C42_iswtn_always_partial",
    "C42_iswtn_success",
    "C42_iswtn_trimmed"
   ],
   "note": "Refuted: if iswtn raises inside a level, that level's dictionary has lost its approximation. Proved: on success every entry is restored (the key order may change), trimmed input never changes, and otherwise only the approximation key can be lost."
  },
  {
   "property": "C43",
   "status": "partial",
   "theorems": [
    "C43_downcoef_diverges_refuted",
    "C43_downcoef_diverges",
    "C43_downcoef_terminates_partial"
   ],
   "note": "dwt and wavedec terminate (C04_*); downcoef loops for ever in the reflect/antireflect modes as soon as it meets an array of one sample: _refuted. Terminates in all other cases: _partial."
  },
  {
   "property": "C44",
   "status": "proved",
   "theorems": [
    "C44_idwt_short"
   ],
   "note": "The check in idwt_single catches 2n+2=F; for 2n+2<F the wrapped size_t length is rejected by the allocator (modelled as an error of np.zeros)."
  },
  {
   "property": "C45",
   "status": "proved",
   "theorems": [
    "C45_wavelist",
    "C45_wavelist_returns",
    "C45_wavelist_distinct",
    "C45_wavelist_sorted",
    "C45_wavelist_order",
    "C45_sort",
    "C45_wavelist_family",
    "C45_wavelet_accepts",
    "C45_continuous_accepts",
    "C45_lower",
    "C45_case_insensitive",
    "C45_case_insensitive_continuous"
   ],
   "note": "ASCII strings. Names with parameters (cmor/shan/fbsp followed by text) are C61."
  },
  {
   "property": "C46",
   "status": "proved",
   "theorems": [
    "C46_value",
    "C46_real",
    "C46_linear",
    "C46_methods",
    "C46_short",
    "C46_nonpositive",
    "C46_other_method"
   ],
   "note": "Value of every coefficient for data of any dimension and any axis, both methods (fft given roots of unity of the power of two used), linearity, equality of the methods, and the rejections."
  },
  {
   "property": "C47",
   "status": "proved",
   "theorems": [
    "C47_dwt_roll"
   ],
   "note": ""
  },
  {
   "property": "C48",
   "status": "proved",
   "theorems": [
    "C48_idwt_length",
    "C48_idwt_dwt_length"
   ],
   "note": ""
  },
  {
   "property": "C49",
   "status": "partial",
   "theorems": [
    "C49_wavedec2_is_wavedecn",
    "C49_waverec2_is_waverecn_partial",
    "C49_oversized_approximation_refuted"
   ],
   "note": "wavedec2 = wavedecn for every input (errors included). waverec2 = waverecn for complete coefficient sets with the coarsest approximation of the size of its details; refuted when it is one larger (waverec2 crops, waverecn raises)."
  },
  {
   "property": "C50",
   "status": "proved",
   "theorems": [
    "C50_dwt_complex",
    "C50_idwt_complex"
   ],
   "note": ""
  },
  {
   "property": "C51",
   "status": "proved",
   "theorems": [
    "C51_inverse",
    "C51_central_frequency_positive",
    "C51_field"
   ],
   "note": "Over Q for the model, and over any field; the central frequency computed by the code is always positive, so no condition on it is needed. Exact arithmetic."
  },
  {
   "property": "C52",
   "status": "proved",
   "theorems": [
    "C52_per_axis"
   ],
   "note": "Exact behaviour for every argument; note that an empty sequence is accepted for an empty axes list."
  },
  {
   "property": "C53",
   "status": "partial",
   "theorems": [
    "C53_swt_default_start_level_refuted",
    "C53_swt_default_start_level_partial"
   ],
   "note": "Refuted: the default level ignores start_level, so every call with level=None and start_level>=1 raises ValueError (_partial gives the exact behaviour)."
  },
  {
   "property": "C54",
   "status": "partial",
   "theorems": [
    "C54_iswt_start_level_refuted"
   ],
   "note": "Refuted for start_level=1: iswt always assumes the last array is level 1, so the result is neither x nor the level-s approximation. For start_level=0 see C18."
  },
  {
   "property": "C55",
   "status": "partial",
   "theorems": [
    "C55_dwtn_axis_refuted",
    "C55_dwt2_axis_refuted",
    "C55_idwtn_axis_refuted"
   ],
   "note": "Refuted: dwtn/dwt2/idwtn do not check the range of axes before the unchecked Cython loops (dwt_axis has boundscheck off); wavedecn, wavedec2, dwt and idwt do check. For axes in range see C22_dwtn_bands and C23_idwtn_dwtn."
  },
  {
   "property": "C56",
   "status": "partial",
   "theorems": [
    "C56_idwtn_none_refuted"
   ],
   "note": "Refuted: idwtn({\"aa\": x}, axes=(0,)) returns None."
  },
  {
   "property": "C57",
   "status": "partial",
   "theorems": [
    "C57_unique_axes_refuted",
    "C57_repeated_axes_rejected_partial"
   ],
   "note": "Refuted: (0, -2) on a 2-D array passes the check. Literally repeated entries are rejected."
  },
  {
   "property": "C58",
   "status": "partial",
   "theorems": [
    "C58_zero_threshold_refuted",
    "C58_zero_threshold_partial"
   ],
   "note": "Refuted: zeros in the data become nan (0/0); every other value is kept."
  },
  {
   "property": "C59",
   "status": "partial",
   "theorems": [
    "C59_equal_thresholds_refuted",
    "C59_equal_thresholds_partial"
   ],
   "note": "Refuted: |x| = threshold gives nan, and large values only in the first row give infinity."
  },
  {
   "property": "C60",
   "status": "partial",
   "theorems": [
    "C60_part_refuted",
    "C60_downcoef_part_partial",
    "C60_upcoef_part_partial"
   ],
   "note": "Refuted: part is tested as a substring of 'ad', so '' and 'ad' are accepted and mean 'd'."
  },
  {
   "property": "C61",
   "status": "partial",
   "theorems": [
    "C61_parameters_partial",
    "C61_one_parameter",
    "C61_fbsp",
    "C61_signs_and_letters_ignored_refuted",
    "C61_numbers"
   ],
   "note": "Every cmorB-C/shanB-C with decimals is accepted with the right values; one parameter is rejected. Refuted in the other direction: signs and letters between the digits are skipped ('cmor-1.5-1.0', 'shanABC0.5xyz1.0')."
  },
  {
   "property": "C62",
   "status": "partial",
   "theorems": [
    "C62_odd_sizes_refuted",
    "C62_even_sizes_partial"
   ],
   "note": "Refuted: NodeND does not trim, so odd sizes fail. Proved when all sizes on the way are even."
  },
  {
   "property": "C63",
   "status": "partial",
   "theorems": [
    "C63_odd_sizes_refuted",
    "C63_rebuild_partial",
    "C63_rebuild_2d_partial"
   ],
   "note": "Refuted when a size on the way is odd. Proved (1-D and 2-D) for a given maxlevel when the sizes stay even."
  },
  {
   "property": "C64",
   "status": "partial",
   "theorems": [
    "C64_ravel_missing_partial",
    "C64_array_missing_partial",
    "C64_array_missing_refuted"
   ],
   "note": "Refuted for coeffs_to_array: the check is unreachable, _determine_coeff_array_shape fails first with an AttributeError. Proved: ravel_coeffs raises ValueError; coeffs_to_array never returns."
  },
  {
   "property": "C65",
   "status": "proved",
   "theorems": [
    "C65_nothing",
    "C65_lines",
    "C65_round_trip"
   ],
   "note": "For arrays with any strides; memory and fuel bounds as hypotheses."
  },
  {
   "property": "C66",
   "status": "partial",
   "theorems": [
    "C66_rejected_partial",
    "C66_refuted"
   ],
   "note": "Refuted: (0, -1) on 1-D data passes the check and the result cannot be inverted. Proved: literally repeated and out-of-range axes are rejected."
  },
  {
   "property": "C67",
   "status": "partial",
   "theorems": [
    "C67_refuted"
   ],
   "note": "Refuted: the converted integers are discarded, indexing with the float raises TypeError."
  },
  {
   "property": "C68",
   "status": "partial",
   "theorems": [
    "C68_discrete_partial",
    "C68_refuted"
   ],
   "note": "Refuted: a discrete Wavelet has no attribute complex_cwt, so cwt raises AttributeError for each of them."
  },
  {
   "property": "C69",
   "status": "partial",
   "theorems": [
    "C69_rejected_partial",
    "C69_refuted"
   ],
   "note": "Refuted for 1-D data, where the axis is ignored. Proved for data of two or more dimensions."
  },
  {
   "property": "C70",
   "status": "proved",
   "theorems": [
    "C70_axis_names",
    "C70_swtn_bands",
    "C70_swt_axis"
   ],
   "note": "Sub-bands of swtn (any dimension, axes, start level, trim_approx, norm) and of swt along an axis."
  },
  {
   "property": "C71",
   "status": "proved",
   "theorems": [
    "C71_iswtn_swtn",
    "C71_iswt_swt_axis"
   ],
   "note": "Round trip from start level 0 (for other start levels see C54)."
  },
  {
   "property": "C72",
   "status": "proved",
   "theorems": [
    "C72_swt2_bands",
    "C72_iswt2_swt2",
    "C72_iswt2_is_iswtn"
   ],
   "note": "Sub-bands of swt2, round trip, and iswt2 = iswtn for arbitrary coefficients of one shape."
  },
  {
   "property": "C73",
   "status": "proved",
   "theorems": [
    "C73_mran_swt",
    "C73_mran_dwt",
    "C73_mra2_swt",
    "C73_mra2_dwt",
    "C73_imran_of_terms",
    "C73_imra2_of_terms",
    "C73_mran_rejects",
    "C73_mra2_rejects"
   ],
   "note": "Stationary (level >= 1, sizes divisible by 2^level) and decimated (any mode, any size the forward transform accepts) transforms. Exact arithmetic; sqrt(2) and 1/2 are ring elements."
  },
  {
   "property": "C74",
   "status": "partial",
   "theorems": [
    "C74_mran_refuted",
    "C74_mra2_refuted",
    "C74_mran_partial",
    "C74_mra2_partial"
   ],
   "note": "Refuted: data.shape of all axes is used, so an axis that is not transformed lowers the level; with level 0 mran then raises ValueError and mra2 returns no detail. Proved: the level is the largest l with 2^l dividing every size of the data."
  },
  {
   "property": "C75",
   "status": "proved",
   "theorems": [
    "C75_from_above",
    "C75_from_below",
    "C75_nowhere",
    "C75_cases",
    "C75_packet"
   ],
   "note": "All three packet classes, all histories. Failure of dwt_max_level itself (filter shorter than 2) is not covered by [known]."
  },
  {
   "property": "C76",
   "status": "partial",
   "theorems": [
    "C76_get_level_2d_partial",
    "C76_level_zero_refuted",
    "C76_get_level_nd"
   ],
   "note": "Level 0 in frequency order is an empty grid (refuted). For L >= 1 in two dimensions, and the natural order for all L, proved. The n-D order is proved in full (C76_get_level_nd)."
  },
  {
   "property": "C77",
   "status": "proved",
   "theorems": [
    "C77_orthogonal",
    "C77_biorthogonal",
    "C77_two_scale_orthogonal",
    "C77_two_scale_biorthogonal",
    "C77_level",
    "C77_keep"
   ],
   "note": "sqrt 2 is a parameter of any commutative ring; the arrays must be allocatable (wf_res)."
  },
  {
   "property": "C78",
   "status": "proved",
   "theorems": [
    "C78_orthogonal",
    "C78_biorthogonal"
   ],
   "note": "Exact arithmetic; the hypotheses on the filters hold for the built-in tables only up to the rounding of their decimals."
  },
  {
   "property": "C79",
   "status": "proved",
   "theorems": [
    "C79_orthonormal",
    "C79_biorthonormal",
    "C79_correlations"
   ],
   "note": "Exact arithmetic; the hypotheses on the filters hold for the built-in tables only up to the rounding of their decimals."
  },
  {
   "property": "C80",
   "status": "proved",
   "theorems": [
    "C80_orthogonal",
    "C80_biorthogonal"
   ],
   "note": "Exact arithmetic; the hypotheses on the filters hold for the built-in tables only up to the rounding of their decimals."
  },
  {
   "property": "C81",
   "status": "proved",
   "theorems": [
    "C81_orthogonal",
    "C81_biorthogonal"
   ],
   "note": "Exact arithmetic; the hypotheses on the filters hold for the built-in tables only up to the rounding of their decimals."
  },
  {
   "property": "C82",
   "status": "proved",
   "theorems": [
    "C82_orthogonal",
    "C82_biorthogonal"
   ],
   "note": "Exact arithmetic; the hypotheses on the filters hold for the built-in tables only up to the rounding of their decimals."
  },
  {
   "property": "C83",
   "status": "partial",
   "theorems": [
    "C83_central_frequency_partial",
    "C83_odd_length",
    "C83_central_frequency_refuted",
    "C83_scales"
   ],
   "note": "Refuted for spectra of odd length N whose maximum is at (N-1)/2: the comparison index > len/2 takes it for a negative frequency and (k+1)/width is returned (C83_odd_length). Proved for all others. The magnitudes of the spectrum are a parameter."
  },
  {
   "property": "C84",
   "status": "proved",
   "theorems": [
    "C84_derivative",
    "C84_energy",
    "C84_moments",
    "C84_last_moment",
    "C84_parity"
   ],
   "note": "Over the real numbers of the standard library (axioms listed in DESIGN.md); no rounding."
  },
  {
   "property": "C85",
   "status": "proved",
   "theorems": [
    "C85_derivative",
    "C85_energy",
    "C85_moments"
   ],
   "note": "Over the real numbers of the standard library (axioms listed in DESIGN.md); no rounding."
  },
  {
   "property": "C86",
   "status": "proved",
   "theorems": [
    "C86_mexh_derivative",
    "C86_mexh_energy",
    "C86_mexh_moments",
    "C86_morl"
   ],
   "note": "Over the real numbers of the standard library (axioms listed in DESIGN.md); no rounding."
  },
  {
   "property": "C87",
   "status": "proved",
   "theorems": [
    "C87_shan",
    "C87_fbsp",
    "C87_cmor",
    "C87_continuous",
    "C87_fbsp_1",
    "C87_modulus",
    "C87_cmor_l1"
   ],
   "note": "Over the real numbers of the standard library (axioms listed in DESIGN.md); no rounding."
  },
  {
   "property": "C88",
   "status": "partial",
   "theorems": [
    "C88_wavefun_partial",
    "C88_errors",
    "C88_zero_frequency_refuted",
    "C88_two_parameters",
    "C88_three_parameters",
    "C88_no_parameters"
   ],
   "note": "Refuted for names with a frequency 0 such as cmor1.0-0: the object is created, wavefun raises TypeError (C88_errors gives this for all of them). Proved for all others. Over the real numbers of the standard library (axioms listed in DESIGN.md); no rounding."
  },
  {
   "property": "C89",
   "status": "partial",
   "theorems": [
    "C89_real_partial",
    "C89_conjugate",
    "C89_complex_refuted"
   ],
   "note": "Refuted for cgau: symmetry says symmetric/anti-symmetric, but the imaginary part has the opposite parity. Proved for the real wavelets; the complex ones satisfy psi(-x) = +-conj psi(x) (C89_conjugate). Over the real numbers of the standard library (axioms listed in DESIGN.md); no rounding."
  },
  {
   "property": "C90",
   "status": "proved",
   "theorems": [
    "C90_central_frequency",
    "C90_one_sample"
   ],
   "note": "Over the reals, without rounding; the absolute value of the spectrum is compared exactly."
  },
  {
   "property": "C91",
   "status": "proved",
   "theorems": [
    "C91_value",
    "C91_grid",
    "C91_methods",
    "C91_roots",
    "C91_real",
    "C91_short",
    "C91_errors",
    "C91_zero_frequency"
   ],
   "note": "Over the complex numbers with the real roots of unity (C91_roots), without rounding."
  },
  {
   "property": "C92",
   "status": "partial",
   "theorems": [
    "C92_iswtn_range_refuted"
   ],
   "note": "Refuted: a negative axis below -ndim becomes, after adding ndim once, a negative index that numpy accepts; axis -3 of two-dimensional data is taken for axis -1 (swtn checks the range)."
  },
  {
   "property": "C93",
   "status": "proved",
   "theorems": [
    "C93_dwt_interior",
    "C93_wavedec_interior",
    "C93_constant",
    "C93_line",
    "C93_swt_constant"
   ],
   "note": "Over any commutative ring; multilevel interior statement for all modes but periodization, one level for all modes."
  },
  {
   "property": "C94",
   "status": "partial",
   "theorems": [
    "C94_psi",
    "C94_rbio",
    "C94_rbio_psi_refuted",
    "C94_bior55_refuted"
   ],
   "note": "Proved for haar, db, sym, coif, bior (exactness of bior5.5 excepted) relative to the exact decimals of the tables; refuted for rbio (rbio3.1) and for exactness at bior5.5."
  },
  {
   "property": "C95",
   "status": "partial",
   "theorems": [
    "C95_dwt",
    "C95_nearest_unique",
    "C95_supported_kept",
    "C95_idwt",
    "C95_wavedec",
    "C95_waverec",
    "C95_round_trip",
    "C95_dwtn",
    "C95_idwtn",
    "C95_idwt_axis_safe",
    "C95_idwt_axis_kind_partial",
    "C95_idwt_axis_mixed_refuted",
    "C95_iswt",
    "C95_cwt",
    "C95_complex_list_refuted",
    "C95_level0_refuted",
    "C95_idwt_idwtn_refuted"
   ],
   "note": "Proved for arrays; refuted for lists of complex numbers (dwt, idwt, cwt), for level=0, and for the agreement of idwt and idwtn."
  },
  {
   "property": "C96",
   "status": "partial",
   "theorems": [
    "C96_iswtn_partial",
    "C96_iswt2_partial",
    "C96_iswtn_refuted",
    "C96_iswt2_refuted"
   ],
   "note": "Proved if no level without complex details follows one with, or if the approximation is complex; refuted in general."
  },
  {
   "property": "C97",
   "status": "partial",
   "theorems": [
    "C97_coeffs_to_array_partial",
    "C97_ravel_coeffs_partial",
    "C97_coeffs_to_array_refuted",
    "C97_ravel_coeffs_refuted"
   ],
   "note": "Proved if the details fit the type of the approximation; refuted in general."
  },
  {
   "property": "C98",
   "status": "partial",
   "theorems": [
    "C98_array",
    "C98_other_real_partial",
    "C98_other_complex",
    "C98_node_refuted"
   ],
   "note": "Proved for arrays and for real lists and nodes; refuted for complex nodes and lists."
  },
  {
   "property": "C99",
   "status": "partial",
   "theorems": [
    "C99_filters",
    "C99_custom",
    "C99_builtin",
    "C99_wavefun",
    "C99_wavefun_refuted",
    "C99_continuous_partial",
    "C99_continuous_refuted",
    "C99_packet",
    "C99_packet_2d",
    "C99_packet_fresh_partial",
    "C99_packet_axis_refuted",
    "C99_packet_nodes_refuted"
   ],
   "note": "Name and filters are kept; exact list of what is lost is proved. Equality of the copy is refuted for orthogonal wavelets (wavefun), changed continuous wavelets, packets with another axis and packets with subnodes."
  },
  {
   "property": "C100",
   "status": "proved",
   "theorems": [
    "C100_dwt",
    "C100_idwt",
    "C100_wavedec"
   ],
   "note": "Standard model of floating point; smooth and antireflect excluded for the decomposition."
  },
  {
   "property": "C101",
   "status": "proved",
   "theorems": [
    "C101_round_trip"
   ],
   "note": "Multi-level bound for perfect-reconstruction banks; the filters may be rounded."
  },
  {
   "property": "C102",
   "status": "proved",
   "theorems": [
    "C102_builtin",
    "C102_double"
   ],
   "note": "One level; residuals of the tables from C34."
  },
  {
   "property": "C103",
   "status": "proved",
   "theorems": [
    "C103_dwt_idwt",
    "C103_injective",
    "C103_wavedec_waverec",
    "C103_dwtn_idwtn",
    "C103_wavedecn_waverecn",
    "C103_idwt_energy"
   ],
   "note": "Perfect reconstruction of the bank is the hypothesis pr_wavelet; sizes are those produced by the transform."
  },
  {
   "property": "C104",
   "status": "proved",
   "theorems": [
    "C104_wavedec",
    "C104_orthonormal",
    "C104_dwtn",
    "C104_wavedecn"
   ],
   "note": "The dual wavelet is given by its filters."
  },
  {
   "property": "C105",
   "status": "proved",
   "theorems": [
    "C105_dwtn",
    "C105_dwtn_other",
    "C105_wavedecn"
   ],
   "note": "One rolled axis at a time; several by iteration."
  },
  {
   "property": "C106",
   "status": "proved",
   "theorems": [
    "C106_existing_nodes",
    "C106_order",
    "C106_packet",
    "C106_packet_2d",
    "C106_packet_nd"
   ],
   "note": "The function looks at nodes and decides by their path; it does not change the tree. Success with decompose=True is proved for all three packet classes (C106_packet, C106_packet_2d, C106_packet_nd); C106_order gives the visited words of any walk that succeeds."
  },
  {
   "property": "C107",
   "status": "partial",
   "theorems": [
    "C107_length_partial",
    "C107_length_bad",
    "C107_lengths_refuted",
    "C107_riemann_refuted",
    "C107_list",
    "C107_requests",
    "C107_fixed_lengths",
    "C107_case_insensitive",
    "C107_length64_partial",
    "C107_powers_of_two",
    "C107_hypchirps64",
    "C107_extra_sample_refuted",
    "C107_hypchirps_refuted",
    "C107_doppler_nan_refuted",
    "C107_chirps_nan_refuted",
    "C107_zero_mean",
    "C107_blocks",
    "C107_ramp",
    "C107_heavisine",
    "C107_sines",
    "C107_doppler",
    "C107_linchirps",
    "C107_grid_values",
    "C107_doppler_values",
    "C107_hypchirps_values",
    "C107_linchirps_values",
    "C107_chirps_values",
    "C107_gabor_values",
    "C107_sineoneoverx_values",
    "C107_polynomial_values",
    "C107_regular_values",
    "C107_riemann_values"
   ],
   "note": "Refuted as documented; the exact set of good lengths is proved (C107_length_partial, C107_length_bad) given the lengths of the two float aranges, which are bounded in double precision for n <= 2^49. The value of every sample of every signal is stated in exact arithmetic (HypChirps from 12 samples, Chirps from 16, Piece-Polynomial from 5 on)."
  },
  {
   "property": "C108",
   "status": "partial",
   "theorems": [
    "C108_not_a_dict",
    "C108_not_wavedec",
    "C108_not_wavedec2",
    "C108_no_approximation",
    "C108_overwritten_refuted",
    "C108_repeated_refuted",
    "C108_uninitialised_refuted"
   ],
   "note": "The errors are proved for all inputs; the property itself is refuted by three counterexamples (C25_round_trip is the positive statement for consistent shapes)."
  },
  {
   "property": "C109",
   "status": "proved",
   "theorems": [
    "C109_soft",
    "C109_soft_contraction",
    "C109_hard",
    "C109_hard_cost",
    "C109_garrote",
    "C109_phase",
    "C109_real",
    "C109_errors",
    "C109_zero_is_nan",
    "C109_firm"
   ],
   "note": "Exact arithmetic over the reals. For a substitute 0 and value 0 zero data give nan, as for real data (C58)."
  },
  {
   "property": "C110",
   "status": "partial",
   "theorems": [
    "C110_infinite_refuted",
    "C110_infinite_nan",
    "C110_limit",
    "C110_documented_refuted",
    "C110_documented_negative",
    "C110_documented_partial"
   ],
   "note": "Refuted as documented; the exact behaviour is proved (all nan for an infinite upper threshold; the documented formula holds for 0 <= x <= high and for no x in [-high, -low))."
  },
  {
   "property": "C111",
   "status": "partial",
   "theorems": [
    "C111_wavedec_keys",
    "C111_wavedec2_keys",
    "C111_basis",
    "C111_wavedec2_picture",
    "C111_fswavedecn_picture",
    "C111_no_levels",
    "C111_gaps_refuted",
    "C111_root_first",
    "C111_root_refuted",
    "C111_outlines"
   ],
   "note": "Proved for sizes divisible by 2^level and keys other than the root; refuted otherwise (gaps for odd sizes, UnboundLocalError or a stale size for the root key)."
  },
  {
   "property": "C112",
   "status": "partial",
   "theorems": [
    "C112_extension",
    "C112_pad",
    "C112_dwt_partial",
    "C112_odd_refuted",
    "C112_idwt",
    "C112_wavedec_partial",
    "C112_linear_phase",
    "C112_builtin"
   ],
   "note": "dwt and wavedec proved for even lengths (of every level), refuted for odd lengths; idwt, pad and the extensions proved without a condition on the parity (periodization: even)."
  },
  {
   "property": "C113",
   "status": "proved",
   "theorems": [
    "C113_local",
    "C113_inside",
    "C113_zero"
   ],
   "note": "Windows inside the signal for all modes except periodization; all windows for zero mode. The window is the smallest one (examples)."
  },
  {
   "property": "C114",
   "status": "partial",
   "theorems": [
    "C114_symmetry_partial",
    "C114_haar",
    "C114_haar_refuted"
   ],
   "note": "Refuted by haar and db1 (symmetric filters, attribute asymmetric); proved for all other built-in wavelets."
  },
  {
   "property": "C115",
   "status": "partial",
   "theorems": [
    "C115_picture",
    "C115_symmetry",
    "C115_copies",
    "C115_enclose",
    "C115_red_refuted",
    "C115_default_refuted"
   ],
   "note": "Everything drawn is specified and the symmetry of the bars proved; refuted: red dots of even signals in periodization mode, and the bars of mode symmetric with the default symw."
  },
  {
   "property": "C116",
   "status": "proved",
   "theorems": [
    "C116_wavedec",
    "C116_changed",
    "C116_waverec",
    "C116_wavedecn",
    "C116_waverecn"
   ],
   "note": "Exact arithmetic; lengths divisible by 2^N, where no sample is repeated. n-dimensional: C116_wavedecn, C116_waverecn (arbitrary axes, per-axis banks)."
  },
  {
   "property": "C117",
   "status": "proved",
   "theorems": [
    "C117_soft",
    "C117_hard",
    "C117_contraction",
    "C117_image_soft",
    "C117_image_hard",
    "C117_image_contraction"
   ],
   "note": "Exact real arithmetic; real data (threshold_c on numbers with imaginary part 0). The approximation is not thresholded, as in the usual use. n-dimensional data: C117_image_soft, C117_image_hard, C117_image_contraction (threshold acts on the elements of an array in row-major order)."
  },
  {
   "property": "C118",
   "status": "partial",
   "theorems": [
    "C118_one_dim",
    "C118_two_dim_partial",
    "C118_n_dim_partial",
    "C118_lost_refuted",
    "C118_refused"
   ],
   "note": "1-D proved (C118_one_dim). Refuted in 2-D (C118_lost_refuted): after p['a'] = x; p.decompose() the data of the subnode is gone and reconstruct, which worked before, raises ValueError; 2-D and n-D: every subnode is replaced by one without data (C118_two_dim_partial, C118_n_dim_partial; missing: the kept subnodes). Refusals: C118_refused."
  },
  {
   "property": "C119",
   "status": "proved",
   "theorems": [
    "C119_wavedec",
    "C119_swt",
    "C119_taps",
    "C119_denoised",
    "C119_wavedecn",
    "C119_image_denoised",
    "C119_swtn"
   ],
   "note": "Exact arithmetic. Denoising: the approximation is not thresholded; the theorem holds for every threshold and mode for which threshold returns."
  },
  {
   "property": "C120",
   "status": "proved",
   "theorems": [
    "C120_packet",
    "C120_packet_2d",
    "C120_packet_nd"
   ],
   "note": "Exact arithmetic; the data is read from the objects by path (node_data)."
  },
  {
   "property": "C121",
   "status": "proved",
   "theorems": [
    "C121_items",
    "C121_no_approximation",
    "C121_axes",
    "C121_shapes",
    "C121_swtn",
    "C121_swt2",
    "C121_swt",
    "C121_iswt"
   ],
   "note": "An untrimmed first dictionary with details of different shapes is C42_iswtn_refuted: it loses its approximation."
  },
  {
   "property": "C122",
   "status": "proved",
   "theorems": [
    "C122_dwt",
    "C122_idwt",
    "C122_dwtn",
    "C122_idwtn",
    "C122_wavedecn",
    "C122_wavedec2",
    "C122_waverecn",
    "C122_waverec2",
    "C122_waverec2_uneven",
    "C122_waverec2_one_level",
    "C122_wavedecn_shapes",
    "C122_dwtn_max_level"
   ],
   "note": "Axes outside the data in dwtn and idwtn are C55; two names of one axis in wavedecn C57. For waverec2 which exception is raised is proved for the first tuple of details; for the later ones, reached only if the levels before them succeed, that there is no result."
  }
 ]
}