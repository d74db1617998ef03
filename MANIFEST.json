{
 "claims": [
  {
   "property": "C01",
   "status": "proved",
   "theorems": [
    "C01_dense_counts_events",
    "C01_dense_sum_counts_events",
    "C01_channel_outside_is_error",
    "C01_overflow_refuted"
   ],
   "note": "Counts are kept modulo 2^width of the dtype; C01_overflow_refuted shows that the guard on overflow is needed."
  },
  {
   "property": "C02",
   "status": "proved",
   "theorems": [
    "C02_lazy_eager_agree",
    "C02_lazy_eager_agree_sum",
    "C02_sparse_counts_events",
    "C02_sparse_sum_counts_events",
    "C02_first_equals_last_refuted"
   ],
   "note": "For first_frame < last_frame. For first_frame = last_frame the decoders differ (refuted with a witness)."
  },
  {
   "property": "C03",
   "status": "proved",
   "theorems": [
    "C03_array_stream_round_trip"
   ],
   "note": ""
  },
  {
   "property": "C04",
   "status": "proved",
   "theorems": [
    "C04_sum_frames"
   ],
   "note": ""
  },
  {
   "property": "C05",
   "status": "proved",
   "theorems": [
    "C05_rebin",
    "C05_rebin_not_dividing_refuted"
   ],
   "note": "For rebin factors dividing the channel count; otherwise decoding fails on the tail channels (refuted with a witness)."
  },
  {
   "property": "C06",
   "status": "proved",
   "theorems": [
    "C06_slices_partition",
    "C06_slices_in_order",
    "C06_blocks_are_the_data"
   ],
   "note": ""
  },
  {
   "property": "C07",
   "status": "proved",
   "theorems": [
    "C07_positions",
    "C07_size_one_axis_refuted",
    "C07_single_position_refuted"
   ],
   "note": "Proved for chunks without an axis of length one; for other chunks the code breaks the property (two refutations)."
  },
  {
   "property": "C08",
   "status": "proved",
   "theorems": [
    "C08_incremental_filename",
    "C08_recursion_limit_refuted"
   ],
   "note": "Termination holds as long as the interpreter's recursion limit exceeds the number of files; a refutation shows the limit matters."
  },
  {
   "property": "C09",
   "status": "proved",
   "theorems": [
    "C09_overwrite_only_with_consent",
    "C09_uppercase_on_retry_refuted"
   ],
   "note": ""
  },
  {
   "property": "C10",
   "status": "proved",
   "theorems": [
    "C10_round_trip",
    "C10_far_future_refuted",
    "C10_before_origin_refuted",
    "C10_microseconds_refuted"
   ],
   "note": "Exact IEEE double arithmetic. Proved for 1899-12-30 to 2079-06-04; refuted outside."
  },
  {
   "property": "C11",
   "status": "proved",
   "theorems": [
    "C11_regular_round_trip",
    "C11_rgb_round_trip",
    "C11_accepted"
   ],
   "note": ""
  },
  {
   "property": "C12",
   "status": "proved",
   "theorems": [
    "C12_ragged_round_trip",
    "C12_mixed_types_refuted"
   ],
   "note": "Numeric cells of one element type; refuted for cells of different types."
  },
  {
   "property": "C13",
   "status": "proved",
   "theorems": [
    "C13_signal_chunks",
    "C13_empty_signal_refuted"
   ],
   "note": "The floating point root is a parameter assumed not to exceed the true root; an exact root meets the assumption."
  },
  {
   "property": "C14",
   "status": "proved",
   "theorems": [
    "C14_metadata_round_trip",
    "C14_none_string_refuted",
    "C14_bytes_refuted",
    "C14_mixed_list_refuted",
    "C14_big_integer_refuted",
    "C14_name_clash_refuted",
    "C14_reserved_key_refuted"
   ],
   "note": "For nested dictionaries of storable values with ordinary keys, of any size and depth; each excluded kind of value is shown to change by a refutation. Signals, dask arrays and ragged arrays inside metadata are not modelled."
  },
  {
   "property": "C15",
   "status": "proved",
   "theorems": [
    "C15_short_list_order",
    "C15_every_long_list_refuted"
   ],
   "note": "Order is kept up to ten elements; every list of eleven or more elements comes back in a wrong order (proved for all such lists)."
  },
  {
   "property": "C16",
   "status": "proved",
   "theorems": [
    "C16_blockfile_round_trip",
    "C16_long_note",
    "C16_line_scan_axes_refuted",
    "C16_big_endian_refuted"
   ],
   "note": "Two navigation axes, 8-bit data without intensity scaling, little endian, note in ASCII. Reading both eagerly and lazily. Refuted: axes of line scans, big endian files."
  },
  {
   "property": "C17",
   "status": "proved",
   "theorems": [
    "C17_data_offset",
    "C17_sixteen_bytes_iff",
    "C17_sixteen_bytes_refuted"
   ],
   "note": ""
  },
  {
   "property": "C18",
   "status": "proved",
   "theorems": [
    "C18_missing_frames_are_zero",
    "C18_extra_frames_refuted"
   ],
   "note": "For truncation at any byte after the header."
  },
  {
   "property": "C19",
   "status": "proved",
   "theorems": [
    "C19_header_round_trip",
    "C19_consistent",
    "C19_semicolon_refuted",
    "C19_tab_refuted",
    "C19_newline_refuted",
    "C19_latin1_refuted"
   ],
   "note": "The INCA variant of the header (first line with a parenthesis) is not modelled. Refuted outside the guard: values with semicolons, tabs, newlines or characters outside latin-1."
  },
  {
   "property": "C20",
   "status": "proved",
   "theorems": [
    "C20_raw_round_trip",
    "C20_depth_one_refuted",
    "C20_column_refuted",
    "C20_silent_refuted"
   ],
   "note": "For at most three axes, one or two of them signal axes. Refuted outside: depth one, one-column images, no or three signal axes."
  },
  {
   "property": "C21",
   "status": "proved",
   "theorems": [
    "C21_signal_round_trip",
    "C21_metadata_round_trip",
    "C21_colon_refuted",
    "C21_colon_hyphens_refuted",
    "C21_piece_space_refuted",
    "C21_newline_refuted"
   ],
   "note": "Stronger than asked: every mapped keyword, with the table of keywords in either of its states. Refuted outside the guard."
  },
  {
   "property": "C22",
   "status": "proved",
   "theorems": [
    "C22_table_after",
    "C22_read_without_sem",
    "C22_spectrum",
    "C22_history_refuted",
    "C22_write_refuted"
   ],
   "note": "True for histories without SEM signals, for the spectrum always; refuted for histories with one SEM signal, both for reading and for writing."
  },
  {
   "property": "C23",
   "status": "proved",
   "theorems": [
    "C23_file_round_trip"
   ],
   "note": "For Y and XY format with the default separator and any conversion of text to numbers."
  },
  {
   "property": "C24",
   "status": "proved",
   "theorems": [
    "C24_unique_names",
    "C24_first_kept",
    "C24_underscore_refuted",
    "C24_names_of_images",
    "C24_names_swapped_refuted",
    "C24_lost_image_refuted",
    "C24_all_images"
   ],
   "note": "Uniqueness for all lists. First occurrences are kept only without underscores; names belong to images only if the directory is listed in order; images are lost only if a virtual and an external image share a name. Each of these guards is needed (refuted)."
  },
  {
   "property": "C25",
   "status": "proved",
   "theorems": [
    "C25_label_round_trip",
    "C25_layout",
    "C25_non_ascii_title_refuted",
    "C25_no_title_refuted",
    "C25_long_unit_refuted",
    "C25_wide_refuted",
    "C25_complex_range_refuted"
   ],
   "note": "Scales and offsets as float32 bit patterns. Outside the guard (non-ASCII or missing title, units longer than four characters, more than 32767 columns, complex data with a long range text) writing or reading fails (refuted)."
  },
  {
   "property": "C26",
   "status": "proved",
   "theorems": [
    "C26_picture_round_trip",
    "C26_padded_rows",
    "C26_padding_refuted"
   ],
   "note": "Elements are compared bit for bit. Files with the padding byte are read correctly, but the writer never writes it (refuted)."
  },
  {
   "property": "C27",
   "status": "proved",
   "theorems": [
    "C27_split",
    "C27_names",
    "C27_no_navigation_refuted"
   ],
   "note": "A signal without navigation axis cannot be written (refuted)."
  },
  {
   "property": "C28",
   "status": "proved",
   "theorems": [
    "C28_winding",
    "C28_no_winding",
    "C28_out_of_bounds",
    "C28_one_scan_axis_refuted"
   ],
   "note": "Gives the frame at every grid position besides the permutation. A scan shape with one entry cannot be wound (refuted)."
  },
  {
   "property": "C29",
   "status": "proved",
   "theorems": [
    "C29_read_after_write",
    "C29_overwrite",
    "C29_stale_files_refuted",
    "C29_single_frame_refuted",
    "C29_version_1_refuted"
   ],
   "note": "Reading back holds when no file with the next number is left from an earlier series; otherwise refuted. Also refuted for one frame and for version 1."
  },
  {
   "property": "C30",
   "status": "proved",
   "theorems": [
    "C30_same",
    "C30_pulses"
   ],
   "note": "Both decoders also give back the encoded pulses."
  },
  {
   "property": "C31",
   "status": "proved",
   "theorems": [
    "C31_same",
    "C31_python",
    "C31_32bit_refuted"
   ],
   "note": "As stated, with the encoded counts given back; refuted for the compiled back end with an 8-byte group."
  },
  {
   "property": "C32",
   "status": "proved",
   "theorems": [
    "C32_read_piece",
    "C32_end_refuted"
   ],
   "note": "An empty read at the very end of a file that fills its chunks raises IndexError (refuted)."
  },
  {
   "property": "C33",
   "status": "proved",
   "theorems": [
    "C33_iter_chunks",
    "C33_empty_refuted",
    "C33_compressed"
   ],
   "note": "Also the blocks of compressed files, with zlib as an argument. An empty file raises IndexError (refuted)."
  },
  {
   "property": "C34",
   "status": "proved",
   "theorems": [
    "C34_table",
    "C34_entry",
    "C34_short_refuted",
    "C34_refuted"
   ],
   "note": "Holds when the code's chunk count suffices; refuted otherwise, for every container, and for 15 entries in chunks of 4096 bytes."
  },
  {
   "property": "C35",
   "status": "proved",
   "theorems": [
    "C35_tags",
    "C35_total",
    "C35_dots_refuted",
    "C35_unnamed_refuted",
    "C35_root_refuted",
    "C35_stale_refuted",
    "C35_arrays_refuted",
    "C35_strings_refuted"
   ],
   "note": "For both versions and byte orders, with image data left in the file at the right offset; unnamed tags included. The refutations show what lies outside the guards."
  },
  {
   "property": "C36",
   "status": "proved",
   "theorems": [
    "C36_unpack",
    "C36_all_used",
    "C36_refused",
    "C36_new_rows",
    "C36_new_plane_refuted"
   ],
   "note": "The exact place of every packed number is part of the theorem. The new packed format is mirrored row by row only."
  },
  {
   "property": "C37",
   "status": "proved",
   "theorems": [
    "C37_frames",
    "C37_frame",
    "C37_last_refuted",
    "C37_reversed_refuted"
   ],
   "note": "Which frames, in which shape, for every case; they always lie inside the file. last_frame is not respected for interrupted scans (refuted) and an empty range fails (refuted)."
  },
  {
   "property": "C38",
   "status": "proved",
   "theorems": [
    "C38_buffer",
    "C38_first_refuted",
    "C38_quad_refuted"
   ],
   "note": "Equal when the first frame is frame 0; refuted for other first frames and for quad headers."
  },
  {
   "property": "C39",
   "status": "proved",
   "theorems": [
    "C39_first",
    "C39_all_refuted"
   ],
   "note": "Refuted for max_index=-1: the last frame is always missing."
  },
  {
   "property": "C40",
   "status": "proved",
   "theorems": [
    "C40_listed",
    "C40_refused",
    "C40_allowed",
    "C40_objects_only"
   ],
   "note": "For a machine with the operations of pickle that look up names, make objects and call them; unlisted names abort before any effect, and only arrays of objects are unpickled."
  },
  {
   "property": "C41",
   "status": "proved",
   "theorems": [
    "C41_sanitize",
    "C41_twice",
    "C41_numbers_refuted"
   ],
   "note": "The refutation shows numbers the pattern misses and lists it takes for numbers."
  },
  {
   "property": "C42",
   "status": "proved",
   "theorems": [
    "C42_simple",
    "C42_paths",
    "C42_simple_refuted",
    "C42_children",
    "C42_flatten",
    "C42_dictionary",
    "C42_once",
    "C42_between",
    "C42_twice_refuted",
    "C42_prefix_refuted",
    "C42_flatten_refuted",
    "C42_between_refuted"
   ],
   "note": "From the parsed tree; for both converters. The refutations show what is lost."
  },
  {
   "property": "C43",
   "status": "proved",
   "theorems": [
    "C43_data",
    "C43_axes",
    "C43_series",
    "C43_scan",
    "C43_name",
    "C43_zero_refuted",
    "C43_name_refuted"
   ],
   "note": "Axes match for sizes of at least one; refuted for size zero. The parsed XML tree is the input."
  },
  {
   "property": "C44",
   "status": "proved",
   "theorems": [
    "C44_update",
    "C44_flat_update",
    "C44_removed_key_refuted",
    "C44_changed_kind_refuted",
    "C44_array_refuted"
   ],
   "note": "Exact effect for nested dictionaries whose shared keys keep their form; lists saved element by element are left out. The refutations show what happens to removed keys and changed forms."
  },
  {
   "property": "C45",
   "status": "proved",
   "theorems": [
    "C45_save_twice",
    "C45_save_twice_refuted"
   ],
   "note": "True for signals that do not come from an MSA file; refuted for those that do."
  },
  {
   "property": "C46",
   "status": "proved",
   "theorems": [
    "C46_precision",
    "C46_small_values_refuted",
    "C46_xy_integers_refuted",
    "C46_xy_small_integers"
   ],
   "note": "%g is modelled for non-negative integers only."
  },
  {
   "property": "C47",
   "status": "proved",
   "theorems": [
    "C47_axes_round_trip",
    "C47_units_refuted",
    "C47_size_one_refuted"
   ],
   "note": "Without axes of length one and with the unit of the first axis; both guards are needed (refuted)."
  },
  {
   "property": "C48",
   "status": "proved",
   "theorems": [
    "C48_volume",
    "C48_big_endian_refuted",
    "C48_axes",
    "C48_axes_refuted"
   ],
   "note": "Little endian files; refuted for big endian files and for axis names after removing length-one axes."
  },
  {
   "property": "C49",
   "status": "proved",
   "theorems": [
    "C49_scan_axes",
    "C49_stack_axes",
    "C49_one_scan_axis_refuted"
   ],
   "note": "For scan shapes with two or more entries; refuted for one entry."
  },
  {
   "property": "C50",
   "status": "proved",
   "theorems": [
    "C50_grid",
    "C50_written_scan",
    "C50_reset_refuted"
   ],
   "note": "Indices that never decrease and start at one or more; the end is misplaced if they return to zero (refuted)."
  },
  {
   "property": "C51",
   "status": "proved",
   "theorems": [
    "C51_pointer_table"
   ],
   "note": ""
  },
  {
   "property": "C52",
   "status": "proved",
   "theorems": [
    "C52_tree",
    "C52_late_directory_refuted"
   ],
   "note": "Refuted when a directory is listed after its content."
  },
  {
   "property": "C53",
   "status": "proved",
   "theorems": [
    "C53_compiled",
    "C53_python",
    "C53_same",
    "C53_last_channel_refuted",
    "C53_full_chunk_refuted",
    "C53_twice_refuted",
    "C53_long_refuted"
   ],
   "note": "For maps within the guards stated in the file; each of the four differences is a refutation outside them."
  },
  {
   "property": "C54",
   "status": "proved",
   "theorems": [
    "C54_unsigned",
    "C54_signed_mean",
    "C54_signed_refuted",
    "C54_lossless",
    "C54_refuted"
   ],
   "note": "Unsigned types hold twice the mean, signed types hold the mean but not twice the mean (refuted), and a map with one bright pixel is truncated (refuted)."
  },
  {
   "property": "C55",
   "status": "proved",
   "theorems": [
    "C55_data",
    "C55_file",
    "C55_big_endian_refuted",
    "C55_named_refuted"
   ],
   "note": "From the bytes of the file to the pixels; refuted for big-endian files and for named images."
  },
  {
   "property": "C56",
   "status": "proved",
   "theorems": [
    "C56_axes",
    "C56_extra_refuted",
    "C56_navigate"
   ],
   "note": "Refuted with more calibrations than dimensions."
  },
  {
   "property": "C57",
   "status": "proved",
   "theorems": [
    "C57_header"
   ],
   "note": ""
  },
  {
   "property": "C58",
   "status": "proved",
   "theorems": [
    "C58_scan",
    "C58_complete",
    "C58_zero_refuted",
    "C58_dropped_refuted"
   ],
   "note": "Times are integers and the mean is exact."
  },
  {
   "property": "C59",
   "status": "proved",
   "theorems": [
    "C59_pixels",
    "C59_axes",
    "C59_row_refuted"
   ],
   "note": "From the bytes of the file to the pixels."
  },
  {
   "property": "C60",
   "status": "proved",
   "theorems": [
    "C60_hdr",
    "C60_skipped",
    "C60_no_tab_refuted"
   ],
   "note": ""
  },
  {
   "property": "C61",
   "status": "proved",
   "theorems": [
    "C61_inspect",
    "C61_lazy",
    "C61_fortran_refuted"
   ],
   "note": "From the bytes of the file; refuted for Fortran order."
  },
  {
   "property": "C62",
   "status": "proved",
   "theorems": [
    "C62_stored",
    "C62_deflated_refuted"
   ],
   "note": "Refuted for compressed entries, which the reader's own writer makes."
  },
  {
   "property": "C63",
   "status": "proved",
   "theorems": [
    "C63_import",
    "C63_spectra",
    "C63_metadata",
    "C63_metadata_refuted",
    "C63_untyped_refuted"
   ],
   "note": "Numbers, sizes, names, calibrations and order of axes, in any dimension."
  },
  {
   "property": "C64",
   "status": "proved",
   "theorems": [
    "C64_round_trip",
    "C64_spectrum_refuted",
    "C64_scan_refuted",
    "C64_energy_refuted"
   ],
   "note": "The refutations show each case outside the guards."
  },
  {
   "property": "C65",
   "status": "proved",
   "theorems": [
    "C65_axes",
    "C65_empty_refuted"
   ],
   "note": ""
  },
  {
   "property": "C66",
   "status": "proved",
   "theorems": [
    "C66_frame",
    "C66_range"
   ],
   "note": ""
  },
  {
   "property": "C67",
   "status": "proved",
   "theorems": [
    "C67_sum",
    "C67_frames",
    "C67_loads_sum",
    "C67_loads_frames",
    "C67_cube",
    "C67_overlap",
    "C67_prepare",
    "C67_image_refuted",
    "C67_frame_axis_refuted",
    "C67_offsets_refuted"
   ],
   "note": "Images are proved for maps that are not wider than tall; the refutations show the rest."
  },
  {
   "property": "C68",
   "status": "proved",
   "theorems": [
    "C68_events",
    "C68_lazy",
    "C68_tall_refuted",
    "C68_downsampling_refuted",
    "C68_no_event_refuted",
    "C68_shift_refuted"
   ],
   "note": "The guards exclude what the refutations show."
  },
  {
   "property": "C69",
   "status": "proved",
   "theorems": [
    "C69_load",
    "C69_short_table_refuted"
   ],
   "note": ""
  },
  {
   "property": "C70",
   "status": "proved",
   "theorems": [
    "C70_spectra",
    "C70_images",
    "C70_series",
    "C70_axes_shape",
    "C70_row_refuted",
    "C70_no_dimension_refuted"
   ],
   "note": "Images scanned with x first must have no dimension of size one; the refutation shows why."
  },
  {
   "property": "C71",
   "status": "proved",
   "theorems": [
    "C71_axes",
    "C71_position",
    "C71_offset_refuted"
   ],
   "note": ""
  },
  {
   "property": "C72",
   "status": "proved",
   "theorems": [
    "C72_objects",
    "C72_metadata",
    "C72_first_refuted",
    "C72_date_refuted"
   ],
   "note": ""
  },
  {
   "property": "C73",
   "status": "proved",
   "theorems": [
    "C73_objects",
    "C73_streams",
    "C73_text",
    "C73_float",
    "C73_single",
    "C73_private_refuted"
   ],
   "note": "zlib is a pair of functions that undo each other."
  },
  {
   "property": "C74",
   "status": "proved",
   "theorems": [
    "C74_along",
    "C74_surface",
    "C74_profile",
    "C74_spectrum",
    "C74_spectra",
    "C74_map",
    "C74_surfaces",
    "C74_profiles",
    "C74_rgb",
    "C74_rgb_series",
    "C74_offset_refuted",
    "C74_rgb16_refuted",
    "C74_one_spectrum_refuted",
    "C74_one_point_refuted"
   ],
   "note": "Scales and offsets of axes are single precision numbers."
  },
  {
   "property": "C75",
   "status": "proved",
   "theorems": [
    "C75_profile",
    "C75_surface",
    "C75_map",
    "C75_constant_refuted",
    "C75_single_refuted",
    "C75_integer_scale_refuted",
    "C75_nan_refuted"
   ],
   "note": "Double arithmetic is exact; rounding to single precision in the header is modelled. Surfaces need a range between 2^-100 and 2^30."
  },
  {
   "property": "C76",
   "status": "proved",
   "theorems": [
    "C76_quantity",
    "C76_no_unit",
    "C76_date",
    "C76_no_date",
    "C76_total",
    "C76_headers",
    "C76_cl_refuted",
    "C76_no_name_refuted",
    "C76_midnight_refuted",
    "C76_headers_refuted"
   ],
   "note": "Dates are parsed by dateutil, taken as the inverse of formatting."
  },
  {
   "property": "C77",
   "status": "proved",
   "theorems": [
    "C77_comment",
    "C77_again",
    "C77_file",
    "C77_ends",
    "C77_ignored",
    "C77_other",
    "C77_methods",
    "C77_foreign",
    "C77_first",
    "C77_space_refuted",
    "C77_equals_refuted",
    "C77_underscore_refuted",
    "C77_number_refuted",
    "C77_nested_refuted",
    "C77_title_refuted",
    "C77_empty_refuted"
   ],
   "note": "Text of values and ast.literal_eval are functions; a value must be what literal_eval gives for its text. The file is proved for surfaces of integers."
  },
  {
   "property": "C78",
   "status": "proved",
   "theorems": [
    "C78_offsets",
    "C78_offsets_short",
    "C78_elements",
    "C78_elements_differ",
    "C78_spectrum",
    "C78_same",
    "C78_cut",
    "C78_unknown",
    "C78_short",
    "C78_element_table",
    "C78_short_refuted"
   ],
   "note": "Single precision numbers stay bit patterns. Headers of versions before 0.7 are shorter than what is read without load_all (C78_short_refuted)."
  },
  {
   "property": "C79",
   "status": "proved",
   "theorems": [
    "C79_map",
    "C79_index",
    "C79_lazy",
    "C79_cut",
    "C79_bytes",
    "C79_name_bytes",
    "C79_ipr_name",
    "C79_big_refuted"
   ],
   "note": "Without lazy, data are read in the byte order of the machine (C79_big_refuted)."
  },
  {
   "property": "C80",
   "status": "proved",
   "theorems": [
    "C80_scan",
    "C80_spc_name",
    "C80_csv_name",
    "C80_csv_relative",
    "C80_csv",
    "C80_csv_short",
    "C80_csv_label",
    "C80_csv_cut",
    "C80_negative",
    "C80_dispatch",
    "C80_missing",
    "C80_csv_name_refuted",
    "C80_one_refuted",
    "C80_lines_refuted"
   ],
   "note": "Cells of the table are not quoted; float is a function. With a relative directory the .csv file is searched for in the wrong place (C80_csv_name_refuted)."
  },
  {
   "property": "C81",
   "status": "proved",
   "theorems": [
    "C81_blocks",
    "C81_contents",
    "C81_tail",
    "C81_cut",
    "C81_zero",
    "C81_header",
    "C81_zeros_refuted"
   ],
   "note": "A block of size 0 never ends (C81_zero: out of fuel for every fuel); a few zero bytes at the end give IndexError (C81_zeros_refuted). C81_cut needs the head of the cut block to be complete."
  },
  {
   "property": "C82",
   "status": "proved",
   "theorems": [
    "C82_inside",
    "C82_set",
    "C82_value",
    "C82_only",
    "C82_complete",
    "C82_flag",
    "C82_type",
    "C82_one_refuted"
   ],
   "note": "Names and numbers differ within one set. Arrays of one element become a number (C82_one_refuted)."
  },
  {
   "property": "C83",
   "status": "proved",
   "theorems": [
    "C83_map",
    "C83_unfinished",
    "C83_line",
    "C83_single",
    "C83_series",
    "C83_unknown",
    "C83_no_grid",
    "C83_order",
    "C83_line_refuted",
    "C83_one_refuted",
    "C83_two_refuted",
    "C83_units",
    "C83_names",
    "C83_infinite",
    "C83_nan",
    "C83_double",
    "C83_note"
   ],
   "note": "Fit of a uniform axis and mean of spectra are functions. Unfinished lines, series of one spectrum (nan step) and series with two axes fail (refuted)."
  },
  {
   "property": "C84",
   "status": "proved",
   "theorems": [
    "C84_calendar",
    "C84_date",
    "C84_date_and_time",
    "C84_block",
    "C84_no_block",
    "C84_no_set",
    "C84_map",
    "C84_text",
    "C84_find",
    "C84_acquisition",
    "C84_extra",
    "C84_no_wxdm",
    "C84_laser_refuted",
    "C84_complete_refuted",
    "C84_flat_refuted",
    "C84_lost_refuted",
    "C84_prefix_refuted",
    "C84_sets",
    "C84_measurement",
    "C84_maps",
    "C84_comment",
    "C84_ylist",
    "C84_from_metadata"
   ],
   "note": "C84_extra is for one level of inner sets. WXDM blocks in which nothing is unmatched fail with KeyError, and values left over are dropped (refuted)."
  },
  {
   "property": "C85",
   "status": "proved",
   "theorems": [
    "C85_blank",
    "C85_word",
    "C85_rest",
    "C85_text",
    "C85_sac",
    "C85_scale",
    "C85_no_steps",
    "C85_no_scan",
    "C85_cut",
    "C85_zero_refuted"
   ],
   "note": "Times are exact multiples of 0.1 ms and the full scale is the nearest single precision number. Characters behind a zero byte inside a text are kept (C85_zero_refuted)."
  },
  {
   "property": "C86",
   "status": "proved",
   "theorems": [
    "C86_name",
    "C86_sbc",
    "C86_geometry",
    "C86_lazy",
    "C86_date"
   ],
   "note": "Division of masses is exact."
  },
  {
   "property": "C87",
   "status": "proved",
   "theorems": [
    "C87_axes",
    "C87_scan",
    "C87_load",
    "C87_column_refuted",
    "C87_falling_refuted",
    "C87_chunks_refuted"
   ],
   "note": "Numbers are exact. A column of patterns gets its last two axes exchanged, lines from high to low y get a wrong step, and patterns stored in chunks cannot be read (refuted)."
  },
  {
   "property": "C88",
   "status": "proved",
   "theorems": [
    "C88_guid",
    "C88_metadata",
    "C88_date",
    "C88_general",
    "C88_image",
    "C88_session",
    "C88_chosen",
    "C88_sessions",
    "C88_one",
    "C88_dry",
    "C88_textless",
    "C88_no_session",
    "C88_untitled",
    "C88_swapped_refuted",
    "C88_image_refuted",
    "C88_noon_refuted",
    "C88_false_refuted",
    "C88_inner_refuted"
   ],
   "note": "C88_metadata is for elements nested once. The calibration of X is given to the axis y, an image cannot be chosen by its address, times lose AM and PM, and nested items are true, or overwritten (refuted)."
  },
  {
   "property": "C89",
   "status": "proved",
   "theorems": [
    "C89_header",
    "C89_axes",
    "C89_image",
    "C89_pixel",
    "C89_kinds",
    "C89_misfit",
    "C89_before",
    "C89_cut",
    "C89_column_refuted"
   ],
   "note": "The fit of a uniform axis is a function. A calibrated image of one column fails with IndexError (refuted)."
  },
  {
   "property": "C90",
   "status": "proved",
   "theorems": [
    "C90_section",
    "C90_comment",
    "C90_equal_refuted",
    "C90_empty_refuted",
    "C90_bracket_refuted",
    "C90_none_refuted"
   ],
   "note": "With a = inside a value the last value must be in quotes; a [ inside a value, an empty last value and an empty comment fail (refuted)."
  },
  {
   "property": "C91",
   "status": "proved",
   "theorems": [
    "C91_detector",
    "C91_frames_refuted",
    "C91_mode_refuted",
    "C91_spectrometer",
    "C91_blaze_refuted",
    "C91_date",
    "C91_general",
    "C91_undated",
    "C91_quantity",
    "C91_unnamed"
   ],
   "note": "Arithmetic is exact. Exposure time without a number of exposures, and a missing acquisition mode, fail with TypeError; a blaze of 0 does not remove the grating (refuted)."
  },
  {
   "property": "C92",
   "status": "proved",
   "theorems": [
    "C92_units",
    "C92_axes",
    "C92_places",
    "C92_spectrum",
    "C92_data",
    "C92_misfit",
    "C92_ragged",
    "C92_repeat_refuted",
    "C92_no_axes_refuted",
    "C92_single_refuted",
    "C92_twice_refuted",
    "C92_file"
   ],
   "note": "A row of one value is repeated, several rows without axes give more dimensions than axes, a spectrum of one value fails, and so does a second list of columns with one value (refuted). Arithmetic is exact; the fit is a function."
  },
  {
   "property": "C93",
   "status": "proved",
   "theorems": [
    "C93_entries",
    "C93_key_refuted",
    "C93_no_key_refuted",
    "C93_clean",
    "C93_renamed",
    "C93_original",
    "C93_second_refuted",
    "C93_metadata",
    "C93_filter_refuted",
    "C93_date_refuted",
    "C93_title_refuted"
   ],
   "note": "An entry without key replaces the values of the one before or is a NameError; a second text alone is a KeyError; without filter, hole, title, or with a date of other than two words, the file is not read (refuted)."
  },
  {
   "property": "C94",
   "status": "proved",
   "theorems": [
    "C94_rollover",
    "C94_forward",
    "C94_steady",
    "C94_clock",
    "C94_date",
    "C94_file",
    "C94_few_refuted",
    "C94_empty_refuted",
    "C94_item_refuted",
    "C94_only"
   ],
   "note": "Arithmetic is exact; float() and the line fitted to the times are functions. A log of no or one row, a calibration without = and a file of empty lines only are not refused as bad files (refuted; the last never ends)."
  },
  {
   "property": "C95",
   "status": "proved",
   "theorems": [
    "C95_parameter",
    "C95_note",
    "C95_header",
    "C95_refused_table",
    "C95_file",
    "C95_first_row_refuted",
    "C95_few",
    "C95_lazy",
    "C95_refused",
    "C95_no_notes_refuted",
    "C95_names_refuted"
   ],
   "note": "Arithmetic is exact; float() and strptime are functions. Without a user in the header the first row is lost, without notes every row has the note False, and names that differ in blanks only share the data (refuted)."
  },
  {
   "property": "C96",
   "status": "proved",
   "theorems": [
    "C96_name",
    "C96_valves",
    "C96_wide",
    "C96_distinct",
    "C96_collision_refuted",
    "C96_units",
    "C96_metadata",
    "C96_empty_row_refuted",
    "C96_notes_refuted",
    "C96_file",
    "C96_no_metadata_refuted",
    "C96_lazy",
    "C96_refused",
    "C96_one_row_refuted"
   ],
   "note": "Arithmetic is exact; float() is a function. Other positions of valves collide, notes are cut at commas, an empty row and a log of one row are IndexErrors, and missing metadata a KeyError (refuted)."
  },
  {
   "property": "C97",
   "status": "proved",
   "theorems": [
    "C97_scan",
    "C97_no_scan",
    "C97_pixels",
    "C97_binned",
    "C97_flat",
    "C97_empty_refuted",
    "C97_lazy",
    "C97_rectangle_refuted",
    "C97_remainder",
    "C97_counts_refuted",
    "C97_scale"
   ],
   "note": "Arithmetic is exact. Images that are not square cannot be read, counts of 32 bits are cut to 16, and a group without datasets is a NameError (refuted)."
  },
  {
   "property": "C98",
   "status": "proved",
   "theorems": [
    "C98_file",
    "C98_navigate",
    "C98_navigate_refuted",
    "C98_missing_refuted",
    "C98_more_refuted",
    "C98_refused"
   ],
   "note": "With one or two dimensions the energy is a navigation axis, one missing calibration takes away all of its kind, and four dimensions are an IndexError (refuted)."
  },
  {
   "property": "C99",
   "status": "proved",
   "theorems": [
    "C99_axis",
    "C99_frames",
    "C99_scan",
    "C99_time",
    "C99_mixed",
    "C99_misfit",
    "C99_one_refuted",
    "C99_stack",
    "C99_stack_refuted",
    "C99_lazy"
   ],
   "note": "float() and the fit of a uniform axis are functions; arithmetic is exact. Axes of stacked spectra have the index -1, scans of glued spectra cannot be read as a stack, and one wavelength fails with a uniform axis (refuted)."
  },
  {
   "property": "C100",
   "status": "proved",
   "theorems": [
    "C100_names",
    "C100_laser",
    "C100_no_wavelength",
    "C100_camera",
    "C100_objective",
    "C100_spectrometers",
    "C100_others",
    "C100_single_refuted",
    "C100_objective_refuted",
    "C100_grating_refuted",
    "C100_title",
    "C100_date",
    "C100_quantity",
    "C100_exposure",
    "C100_detector",
    "C100_glued",
    "C100_wavelength",
    "C100_stages",
    "C100_names_refuted",
    "C100_groups_refuted"
   ],
   "note": "C100_names is for names that are not another name with digits. One device only of a kind, no enabled objective and no fitting grating fail; names with digits, and groups of groups of one name, are overwritten (refuted)."
  },
  {
   "property": "C101",
   "status": "proved",
   "theorems": [
    "C101_grey",
    "C101_few",
    "C101_colour",
    "C101_grey_colours",
    "C101_red_refuted",
    "C101_line_refuted",
    "C101_channels",
    "C101_depth",
    "C101_axes",
    "C101_no_tags",
    "C101_index_refuted",
    "C101_unit_refused",
    "C101_row_refuted",
    "C101_file"
   ],
   "note": "Colours are lost when green and blue agree everywhere, since these are compared twice and red never; an image in colours of one row is read as numbers, a grey one not at all; the two axes have each other's index (refuted)."
  },
  {
   "property": "C102",
   "status": "proved",
   "theorems": [
    "C102_grey",
    "C102_keywords",
    "C102_colour",
    "C102_red_refuted",
    "C102_size",
    "C102_scalebar",
    "C102_refused",
    "C102_aspect_refuted"
   ],
   "note": "Units as written by pint are a function. A red image is grey when read again, and aspects given as words are a TypeError (refuted)."
  },
  {
   "property": "C103",
   "status": "proved",
   "theorems": [
    "C103_read",
    "C103_entries",
    "C103_missing",
    "C103_mode",
    "C103_flat",
    "C103_write",
    "C103_roundtrip",
    "C103_lost_refuted",
    "C103_short_refuted"
   ],
   "note": "The library mrcz is left out. Offsets and the units of the first axes are lost, signals of fewer than three axes cannot be written (refuted)."
  },
  {
   "property": "C104",
   "status": "proved",
   "theorems": [
    "C104_round",
    "C104_square",
    "C104_no_units",
    "C104_both_refuted",
    "C104_signals",
    "C104_uneven",
    "C104_channel",
    "C104_measurement_refuted",
    "C104_title",
    "C104_file",
    "C104_path",
    "C104_no_path"
   ],
   "note": "The slope of values is a function. With both kinds of brackets the units are wrong, and attributes of the measurement group are never read, since the group of the channel is looked at twice (refuted)."
  },
  {
   "property": "C105",
   "status": "proved",
   "theorems": [
    "C105_flat",
    "C105_parameters",
    "C105_hyphen_refuted",
    "C105_original_refuted",
    "C105_dimensions",
    "C105_elements",
    "C105_few",
    "C105_again"
   ],
   "note": "pyUSID is left out: the dataset in the file holds what was handed to it. Keys with hyphens, and a group named Original, hide other entries (refuted)."
  },
  {
   "property": "C106",
   "status": "proved",
   "theorems": [
    "C106_varuint",
    "C106_end",
    "C106_end_numbers",
    "C106_end_text",
    "C106_numbers",
    "C106_texts",
    "C106_elements",
    "C106_oxide",
    "C106_eds"
   ],
   "note": "The value of a 64-bit float, radians and float() are functions."
  },
  {
   "property": "C107",
   "status": "proved",
   "theorems": [
    "C107_analysis",
    "C107_empty_map",
    "C107_file",
    "C107_no_picture_refuted",
    "C107_spot_refuted",
    "C107_msa_refuted",
    "C107_version",
    "C107_recognised"
   ],
   "note": "bz2 and tifffile are left out. An image without picture, or an analysis other than MSA and constructive ones in the lists at the end, make a file unreadable; MSA spectra without picture lose the acquisition settings of the image (refuted)."
  },
  {
   "property": "C108",
   "status": "proved",
   "theorems": [
    "C108_xml",
    "C108_units",
    "C108_prefix",
    "C108_picture",
    "C108_image"
   ],
   "note": "Numbers are exact."
  },
  {
   "property": "C109",
   "status": "proved",
   "theorems": [
    "C109_units",
    "C109_place",
    "C109_values",
    "C109_angle",
    "C109_bare",
    "C109_unknown"
   ],
   "note": "Numbers are exact."
  },
  {
   "property": "C110",
   "status": "proved",
   "theorems": [
    "C110_kind",
    "C110_title",
    "C110_kind_unique",
    "C110_metadata",
    "C110_merge",
    "C110_not_merged",
    "C110_selection",
    "C110_angle_resolved",
    "C110_no_concurrent_refuted",
    "C110_no_state_refuted"
   ],
   "note": "h5py is left out. Angle-resolved images without a concurrent one make the file unreadable; an acquisition with a value without state is left out (refuted)."
  },
  {
   "property": "C111",
   "status": "proved",
   "theorems": [
    "C111_order",
    "C111_repeated_refuted"
   ],
   "note": "Two dimensions of one name that have to be moved make the file unreadable (refuted)."
  },
  {
   "property": "C112",
   "status": "proved",
   "theorems": [
    "C112_round_trip",
    "C112_units_refuted",
    "C112_title_refuted"
   ],
   "note": "The units library is a function; h5py is left out. Empty units become [], underscores are lost, units end at a closing bracket; titles keep what is after the last slash and lose _depth (refuted)."
  },
  {
   "property": "C113",
   "status": "proved",
   "theorems": [
    "C113_one",
    "C113_stack",
    "C113_found",
    "C113_classes",
    "C113_separate",
    "C113_missing",
    "C113_path",
    "C113_prefix_refuted",
    "C113_second_refuted",
    "C113_zero_stack_refuted",
    "C113_line_refuted",
    "C113_one_value_refuted"
   ],
   "note": "Signals whose group name occurs in the path of another are stacked with it or nothing is read; the second dataset of a group is lost; stacks numbered from zero fail; stacks of lines have the axis of the other dimension; a dimension with one value has no scale (refuted)."
  },
  {
   "property": "C114",
   "status": "proved",
   "theorems": [
    "C114_depth",
    "C114_product",
    "C114_lines",
    "C114_plain_stack",
    "C114_parameters",
    "C114_short_names",
    "C114_title",
    "C114_kind",
    "C114_angstrom",
    "C114_no_brackets",
    "C114_no_cell_refuted"
   ],
   "note": "Numbers are exact. Depth sections without cell size are not read (refuted)."
  },
  {
   "property": "C115",
   "status": "proved",
   "theorems": [
    "C115_channels",
    "C115_ratio",
    "C115_counts",
    "C115_paths",
    "C115_apart",
    "C115_events",
    "C115_overlap_refuted",
    "C115_clock",
    "C115_clock_refuted",
    "C115_division_refuted"
   ],
   "note": "Masses are exact and counts unbounded. With overlapping windows events in a window are lost or counted for another peak; a clock slower than twice the samples is a ZeroDivisionError with the compiled path only; counts below the divisor become 0 (refuted)."
  },
  {
   "property": "C116",
   "status": "proved",
   "theorems": [
    "C116_nominal",
    "C116_nominal_events",
    "C116_additional",
    "C116_additional_events",
    "C116_pixel",
    "C116_axes",
    "C116_table_refuted",
    "C116_table_range_refuted"
   ],
   "note": "h5py is left out. The table of peaks in the metadata is neither in the order of the axis nor limited to the range of masses (refuted)."
  },
  {
   "property": "C117",
   "status": "proved",
   "theorems": [
    "C117_sum",
    "C117_dip_refuted",
    "C117_events",
    "C117_images",
    "C117_depth_refuted",
    "C117_selection",
    "C117_kinds",
    "C117_available",
    "C117_refused"
   ],
   "note": "Later masses that do not grow stay in the axis of the sum spectrum; the range of depths is applied to images after those of other shapes are left out, so images of other depths are read (refuted)."
  },
  {
   "property": "C118",
   "status": "proved",
   "theorems": [
    "C118_even",
    "C118_mirror",
    "C118_uneven",
    "C118_tolerance",
    "C118_single",
    "C118_refused",
    "C118_order",
    "C118_indices",
    "C118_clash",
    "C118_none",
    "C118_number",
    "C118_plain",
    "C118_signal_number",
    "C118_missing",
    "C118_descending_refuted",
    "C118_tiny_refuted",
    "C118_uneven_refuted",
    "C118_dots_refuted"
   ],
   "note": "Numbers are exact. Descending axes come back ascending without the data being reversed; steps far below 1e-8 count as even; uneven axes lose their values and units; a dot before an axis with a lower position gives two axes for one dimension (refuted)."
  },
  {
   "property": "C119",
   "status": "proved",
   "theorems": [
    "C119_found",
    "C119_total",
    "C119_data",
    "C119_once",
    "C119_keys",
    "C119_key",
    "C119_fetch",
    "C119_title",
    "C119_defaults",
    "C119_dataset_title",
    "C119_target_refuted",
    "C119_default_refuted"
   ],
   "note": "h5py is left out. Targets are looked for in the group around a dataset; the default is matched as part of a path (refuted)."
  },
  {
   "property": "C120",
   "status": "proved",
   "theorems": [
    "C120_round_trip",
    "C120_all",
    "C120_clean",
    "C120_single",
    "C120_create",
    "C120_groups",
    "C120_search",
    "C120_no_words",
    "C120_keys_refuted",
    "C120_values_refuted",
    "C120_none_refuted",
    "C120_lists_refuted",
    "C120_nxdata_refuted",
    "C120_dots_refuted"
   ],
   "note": "Names starting with keys, blanks at the end, lists of one element, None, empty lists, dictionaries with only a value or marked as NXdata, and lists of dictionaries change or are lost; a dot in a name splits it when searching (refuted)."
  },
  {
   "property": "C121",
   "status": "proved",
   "theorems": [
    "C121_signal",
    "C121_title",
    "C121_same",
    "C121_lists",
    "C121_index",
    "C121_function",
    "C121_unnamed",
    "C121_file",
    "C121_twice_refuted",
    "C121_auxiliary_refuted",
    "C121_three_refuted",
    "C121_data_refuted",
    "C121_short_refuted",
    "C121_negative_refuted",
    "C121_general_refuted",
    "C121_extra_refuted",
    "C121_wrong_refuted",
    "C121_order_refuted"
   ],
   "note": "h5py is left out. Two axes of one name, an axis called data, a title auxiliary, three signal axes, axes of one value and negative scales do not come back; of General only the title does; read with everything, axes are signals too, described by another axis (refuted)."
  },
  {
   "property": "C122",
   "status": "proved",
   "theorems": [
    "C122_types",
    "C122_unknown",
    "C122_unknown_error",
    "C122_image_refuted",
    "C122_spectra_refuted"
   ],
   "note": "h5py, json and pint are left out. The documented selection image is refused; spectra beside images without a spectrum image are lost (refuted)."
  },
  {
   "property": "C123",
   "status": "proved",
   "theorems": [
    "C123_calibration",
    "C123_data",
    "C123_axes",
    "C123_calibrated",
    "C123_title",
    "C123_lazy",
    "C123_eager",
    "C123_stale_refuted"
   ],
   "note": "Numbers are exact. An image that names no detector takes the name of the image before it (refuted)."
  },
  {
   "property": "C124",
   "status": "proved",
   "theorems": [
    "C124_calibration",
    "C124_uncalibrated",
    "C124_data",
    "C124_axes",
    "C124_title",
    "C124_rebin_refuted",
    "C124_detector_refuted"
   ],
   "note": "Rebinning stretches the axis of a spectrum that is not rebinned; a detector whose name contains the wanted one is taken for it (refuted)."
  },
  {
   "property": "C125",
   "status": "proved",
   "theorems": [
    "C125_summed",
    "C125_each",
    "C125_frames",
    "C125_frames_refused",
    "C125_axes",
    "C125_computed",
    "C125_shape_refuted",
    "C125_bins_refuted",
    "C125_unit_refuted"
   ],
   "note": "Unsigned counts. The shape depends on the selection, the unit on the summing of frames, and the axes take the channels of the first stream for all (refuted)."
  },
  {
   "property": "C126",
   "status": "proved",
   "theorems": [
    "C126_date",
    "C126_west_refuted",
    "C126_start",
    "C126_camera",
    "C126_none",
    "C126_missing"
   ],
   "note": "The time zone is a function. West of Greenwich the time ends with the zone (refuted)."
  },
  {
   "property": "C127",
   "status": "proved",
   "theorems": [
    "C127_data",
    "C127_line",
    "C127_axes",
    "C127_fit",
    "C127_energy",
    "C127_title",
    "C127_all",
    "C127_axes_refuted",
    "C127_filename_refuted"
   ],
   "note": "Cubes with different first sizes get axes that do not fit; the file name has its directory, unlike elsewhere (refuted)."
  },
  {
   "property": "C128",
   "status": "proved",
   "theorems": [
    "C128_nul",
    "C128_original",
    "C128_group",
    "C128_mapping",
    "C128_elements",
    "C128_elements_differ"
   ],
   "note": "json is a function."
  },
  {
   "property": "C129",
   "status": "proved",
   "theorems": [
    "C129_image",
    "C129_stack",
    "C129_exact",
    "C129_intensity"
   ],
   "note": "tifffile is left out: tags and the two resolutions are taken to come back as written. Numbers are exact."
  },
  {
   "property": "C130",
   "status": "proved",
   "theorems": [
    "C130_dimensions",
    "C130_units",
    "C130_small_refuted",
    "C130_mixed_refuted",
    "C130_four_refuted"
   ],
   "note": "Scales below 1e-8 come back as zero; the unit of y is lost if that of x is micrometres; with two navigation axes the second decides about the units and loses its scale (refuted)."
  },
  {
   "property": "C131",
   "status": "proved",
   "theorems": [
    "C131_axes",
    "C131_force",
    "C131_zeiss",
    "C131_tvips",
    "C131_tvips_nm",
    "C131_jeol_image",
    "C131_jeol_diffraction",
    "C131_fei",
    "C131_olympus",
    "C131_width_refuted"
   ],
   "note": "FEI, TVIPS and Olympus: the width of pixels is given to the height of the image, so only square pixels are right (refuted for the others)."
  },
  {
   "property": "C132",
   "status": "proved",
   "theorems": [
    "C132_read",
    "C132_colours",
    "C132_force_refuted",
    "C132_date",
    "C132_mode",
    "C132_fei_half"
   ],
   "note": "Forcing the resolution makes reading of JEOL files fail (refuted)."
  },
  {
   "property": "C133",
   "status": "proved",
   "theorems": [
    "C133_description",
    "C133_comma_refuted",
    "C133_blank",
    "C133_fit",
    "C133_axes",
    "C133_pixels",
    "C133_stored"
   ],
   "note": "Commas inside of quotes are not kept (refuted). The fit is least squares in exact numbers; that of degree three is a function."
  },
  {
   "property": "C134",
   "status": "proved",
   "theorems": [
    "C134_time",
    "C134_fei",
    "C134_zeiss",
    "C134_stage",
    "C134_table"
   ],
   "note": "Reading of dates and pint are functions."
  },
  {
   "property": "C135",
   "status": "proved",
   "theorems": [
    "C135_pictures",
    "C135_file",
    "C135_misfit",
    "C135_plane",
    "C135_black_refuted",
    "C135_title_refuted"
   ],
   "note": "Pictures that are all black are left out, and an empty description becomes the title None (refuted). Base64 and zlib are a function."
  },
  {
   "property": "C136",
   "status": "proved",
   "theorems": [
    "C136_numbers",
    "C136_choice",
    "C136_wrong",
    "C136_both",
    "C136_sum",
    "C136_ten_refuted"
   ],
   "note": "Only the last digit of a name counts: with ten or more maps one is given in place of another (refuted)."
  },
  {
   "property": "C137",
   "status": "proved",
   "theorems": [
    "C137_map",
    "C137_square",
    "C137_width_refuted"
   ],
   "note": "The width has the spacing of rows: right for square pixels only (refuted for others). The parser of pixels is the one modelled in BcfModel, here a function."
  },
  {
   "property": "C138",
   "status": "proved",
   "theorems": [
    "C138_spectrum",
    "C138_scope",
    "C138_header",
    "C138_elements",
    "C138_no_elements",
    "C138_map",
    "C138_date_refuted"
   ],
   "note": "A header without a date is an error (refuted). Dates and literals are functions."
  },
  {
   "property": "C139",
   "status": "proved",
   "theorems": [
    "C139_spectrum",
    "C139_one_refuted",
    "C139_date_refuted"
   ],
   "note": "One selected element is given as a text, not a list; no date is an error (refuted)."
  },
  {
   "property": "C140",
   "status": "proved",
   "theorems": [
    "C140_kind",
    "C140_names",
    "C140_axes",
    "C140_turned",
    "C140_title",
    "C140_x_rays_refuted"
   ],
   "note": "The energy axis of X-ray spectra never gets its name, because EDS_TEM is compared with EDS and EDX (refuted)."
  },
  {
   "property": "C141",
   "status": "proved",
   "theorems": [
    "C141_mode",
    "C141_quantity",
    "C141_microscope",
    "C141_exposure",
    "C141_texts",
    "C141_detector",
    "C141_lists"
   ],
   "note": "Dates are parsed by a function (dateutil)."
  },
  {
   "property": "C142",
   "status": "proved",
   "theorems": [
    "C142_once",
    "C142_sources",
    "C142_general",
    "C142_magnification",
    "C142_branch",
    "C142_dates",
    "C142_kinds",
    "C142_brightness",
    "C142_instrument",
    "C142_flags",
    "C142_file",
    "C142_stack_refuted",
    "C142_eds_refuted"
   ],
   "note": "The kind of microscope of stacks is looked up outside of the source tags, and detectors of a SEM come below TEM (refuted). Applying the mapping is left to hyperspy."
  }
 ]
}