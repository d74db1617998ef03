{"id": "C01", "title": "Dense decoding of an EDS event stream counts events", "statement": "Decoding an event stream eagerly (lazy=False) into a cube gives, in every (frame,) pixel and channel bin, exactly the number of events the stream contains for that frame, pixel and channel bin among the frames first_frame <= f < last_frame; every other event changes nothing.", "quantifier": "for every stream of 16-bit words, every frame size, every channel count, rebin factor, dtype width that does not overflow, and every frame range", "why_tests_cant": "The counting must hold for all interleavings of marker and channel words; tests decode a handful of recorded streams.", "anchors": ["rsciio/utils/_fei_stream_readers.py:stream_to_array", "rsciio/utils/_fei_stream_readers.py:_fill_array_with_stream", "rsciio/utils/_fei_stream_readers.py:_fill_array_with_stream_sum_frames"]}
{"id": "C02", "title": "Lazy and eager stream decoding agree", "statement": "The sparse decoder used for lazy loading yields, after summing duplicate coordinates, the same cube as the dense decoder for the same stream and options.", "quantifier": "for every stream of 16-bit words, frame size and frame range with first_frame < last_frame, with and without summing frames", "why_tests_cant": "The two decoders advance their pixel and frame counters at different moments (eagerly when skipping, lazily when reading); agreement on recorded files says nothing about boundary streams.", "anchors": ["rsciio/utils/_fei_stream_readers.py:stream_to_sparse_COO_array", "rsciio/utils/_fei_stream_readers.py:_stream_to_sparse_COO_array", "rsciio/utils/_fei_stream_readers.py:_stream_to_sparse_COO_array_sum_frames", "rsciio/utils/_fei_stream_readers.py:stream_to_array"]}
{"id": "C03", "title": "Cube to event stream to cube round trip", "statement": "Turning a cube of counts into an event stream and decoding it eagerly returns the same cube.", "quantifier": "for every cube shape with non-zero pixels and every cube of non-negative counts whose channel numbers fit below the pixel marker 65535", "why_tests_cant": "The round trip must hold for all count arrays, including empty pixels, empty frames and large counts.", "anchors": ["rsciio/utils/_fei_stream_readers.py:array_to_stream", "rsciio/utils/_fei_stream_readers.py:stream_to_array"]}
{"id": "C04", "title": "Summing frames at load equals summing afterwards", "statement": "Decoding with sum_frames=True gives the frame-wise sum of the cube decoded with sum_frames=False.", "quantifier": "for every stream and every frame range", "why_tests_cant": "A relation between two code paths over all inputs.", "anchors": ["rsciio/utils/_fei_stream_readers.py:stream_to_array"]}
{"id": "C05", "title": "Energy rebinning equals binning afterwards", "statement": "Decoding with rebin_energy=r gives, in bin b, the sum of the channels b*r..b*r+r-1 of the cube decoded without rebinning.", "quantifier": "for every stream, every rebin factor r >= 1 dividing the number of channels", "why_tests_cant": "A relation between two decodings over all streams and factors.", "anchors": ["rsciio/utils/_fei_stream_readers.py:stream_to_array"]}
{"id": "C06", "title": "Chunk slices partition the array", "statement": "The slices computed for the chunks of a memory-mapped array are pairwise disjoint, in order, and together cover each axis exactly once from 0 to its length.", "quantifier": "for every shape and every chunking whose per-axis chunk sizes sum to the axis length", "why_tests_cant": "All chunkings of all shapes, not just sampled ones; an off-by-one would silently drop or duplicate frames.", "anchors": ["rsciio/utils/_distributed.py:get_chunk_slice"]}
{"id": "C07", "title": "Frames with arbitrary scan positions land where the positions say", "statement": "When frames are loaded lazily at arbitrary scan positions, the frame shown at a navigation position is the last acquired frame recorded at that position, and a zero frame where no frame was acquired. For navigation chunks with a size-one axis the current code does not keep this.", "quantifier": "for every list of positions inside the navigation shape", "why_tests_cant": "Position lists are data dependent; the fault appears only for particular chunk shapes.", "anchors": ["rsciio/utils/_distributed.py:get_arbitrary_chunk_slice", "rsciio/utils/_distributed.py:slice_memmap"]}
{"id": "C08", "title": "Incremental file names are fresh", "statement": "The incremental file name helper terminates and returns the given name if no such file exists, otherwise stem-k+suffix with the least k >= 1 such that no file of that name exists.", "quantifier": "for every finite set of existing files and every file name", "why_tests_cant": "Requires termination and minimality over all directory contents.", "anchors": ["rsciio/utils/path.py:incremental_filename", "rsciio/utils/path.py:append2pathname"]}
{"id": "C09", "title": "A file is only overwritten after a yes", "statement": "The overwrite helper says yes only if the file does not exist or the user answered y (in either case for the first answer); any answer sequence is handled by asking again.", "quantifier": "for every existing/not existing file and every sequence of user answers", "why_tests_cant": "All answer sequences; an interactive loop is not exercised by tests.", "anchors": ["rsciio/utils/path.py:overwrite"]}
{"id": "C10", "title": "Serial date conversion round trip", "statement": "Converting a date-time (with whole seconds, from 1899-12-30 up to mid 2079) to an OLE serial date (a double) and back gives the same date-time, to the microsecond. Later dates can be a microsecond off. For dates before 1899-12-30 with a non-zero time of day the conversion back is a day off.", "quantifier": "for every calendar date and time of day", "why_tests_cant": "The day count is unbounded and the sign matters.", "anchors": ["rsciio/utils/_date_time.py:datetime_to_serial_date", "rsciio/utils/_date_time.py:serial_date_to_datetime"]}
{"id": "C11", "title": "RGB packing round trip", "statement": "Converting a regular array with a last axis of 3 or 4 components to an RGB(A) structured array and back gives the same array, and vice versa.", "quantifier": "for every array of any navigation shape, for both 8 and 16 bit", "why_tests_cant": "All shapes and contents.", "anchors": ["rsciio/utils/rgb.py:rgbx2regular_array", "rsciio/utils/rgb.py:regular_array2rgbx"]}
{"id": "C12", "title": "Ragged arrays survive flattening", "statement": "Flattening a ragged array for storage and unflattening with the stored shapes gives the same ragged array, for arrays of one element type. Arrays of several element types are converted to that of the first.", "quantifier": "for every ragged array of arrays of any shape", "why_tests_cant": "All inner shapes, including empty arrays.", "anchors": ["rsciio/_hierarchical.py:flatten_data", "rsciio/_hierarchical.py:unflatten_data"]}
{"id": "C13", "title": "Signal chunks fit the signal", "statement": "The automatic chunking of a dataset (with non-empty signal axes) terminates without error, never makes a chunk larger than the axis or smaller than one, keeps signal axes whole when the signal fits the target size, and then keeps a chunk below the target size bound.", "quantifier": "for every shape, every choice of signal axes, every item size and every target size", "why_tests_cant": "The search loop's termination and absence of division by zero must hold for all shapes.", "anchors": ["rsciio/_hierarchical.py:get_signal_chunks"]}
{"id": "C14", "title": "Metadata dictionaries survive hspy/zspy storage", "statement": "Writing a metadata dictionary to a group and reading it back gives an equal dictionary, for dictionaries of supported values whose keys do not start with one of the reserved markers.", "quantifier": "for every nested dictionary of supported values with keys free of reserved prefixes, lists and tuples shorter than eleven entries", "why_tests_cant": "Nested dictionaries are unbounded.", "anchors": ["rsciio/_hierarchical.py:HierarchicalWriter.dict2group", "rsciio/_hierarchical.py:HierarchicalReader._group2dict", "rsciio/_hierarchical.py:HierarchicalWriter.parse_structure"]}
{"id": "C15", "title": "Order of long heterogeneous lists", "statement": "A list or tuple stored element by element is read back in the same order. This fails for eleven or more elements, because the element names are sorted as strings.", "quantifier": "for every list of elements that cannot be stored as one array", "why_tests_cant": "The fault only appears from eleven elements on.", "anchors": ["rsciio/_hierarchical.py:HierarchicalWriter.parse_structure", "rsciio/_hierarchical.py:HierarchicalReader._group2dict"]}
{"id": "C16", "title": "Blockfile data round trip", "statement": "Writing a stack of 8-bit square diffraction patterns to a blockfile and reading it back eagerly gives the same frames at the same scan positions, and reading skips exactly the six header bytes of every frame.", "quantifier": "for every scan shape, pattern size and pixel content with a header that fits its fields", "why_tests_cant": "All sizes and contents; offsets are computed from header fields.", "anchors": ["rsciio/blockfile/_api.py:file_writer", "rsciio/blockfile/_api.py:file_reader", "rsciio/blockfile/_api.py:get_header_from_signal"]}
{"id": "C17", "title": "Blockfile data offset", "statement": "The offset of the diffraction data in a written blockfile is on a 16-bit boundary, behind the virtual bright field image and less than 16 bytes after it. It is a multiple of 16 bytes only when the end of that image is a multiple of 8.", "quantifier": "for every scan shape and header size", "why_tests_cant": "The rounding depends on NX*NY modulo 16, for all sizes.", "anchors": ["rsciio/blockfile/_api.py:get_header_from_signal"]}
{"id": "C18", "title": "Truncated blockfiles are padded with zero frames", "statement": "Reading a blockfile with fewer frames than the header promises gives all the stored frames in order followed by zero frames, with the promised shape.", "quantifier": "for every number of missing frames", "why_tests_cant": "All truncation points.", "anchors": ["rsciio/blockfile/_api.py:file_reader"]}
{"id": "C19", "title": "Ripple header round trip", "statement": "The keys and values written to an .rpl header are read back unchanged, for keys and values free of tabs, newlines and semicolons.", "quantifier": "for every dictionary of header entries meeting the guard", "why_tests_cant": "All strings; parsing depends on separators inside values.", "anchors": ["rsciio/ripple/_api.py:write_rpl", "rsciio/ripple/_api.py:parse_ripple"]}
{"id": "C20", "title": "Ripple raw data round trip", "statement": "Writing data of a supported kind with record-by image, vector or dont-care and reading it back with the written header gives the same data and shape.", "quantifier": "for every shape of one to three dimensions and every supported data type", "why_tests_cant": "All shapes, including axes of size one.", "anchors": ["rsciio/ripple/_api.py:write_raw", "rsciio/ripple/_api.py:read_raw", "rsciio/ripple/_api.py:file_writer", "rsciio/ripple/_api.py:file_reader"]}
{"id": "C21", "title": "EMSA/MSA text fields round trip", "statement": "A title written to an .msa file is read back unchanged, for titles without line breaks, without ': ' and whose 64-character pieces do not end in white space. It is not for other titles.", "quantifier": "for every title string", "why_tests_cant": "Pieces are cut at 64 characters; the fault depends on what sits at the cut.", "anchors": ["rsciio/msa/_api.py:file_writer", "rsciio/msa/_api.py:parse_msa_string"]}
{"id": "C22", "title": "Reading MSA files does not depend on earlier writes", "statement": "The metadata read from an .msa file depends only on the file, not on files written before in the same process. Writing one SEM signal breaks this for all later TEM files.", "quantifier": "for every sequence of reads and writes", "why_tests_cant": "A history property across calls through a module-level table.", "anchors": ["rsciio/msa/_api.py:file_writer", "rsciio/msa/_api.py:parse_msa_string", "rsciio/msa/_api.py:keywords"]}
{"id": "C23", "title": "MSA spectrum values are read back in order", "statement": "The list of Y values written to an .msa file in Y or XY format is read back complete and in order.", "quantifier": "for every list of values", "why_tests_cant": "All lengths and values.", "anchors": ["rsciio/msa/_api.py:file_writer", "rsciio/msa/_api.py:parse_msa_string"]}
{"id": "C24", "title": "Names of virtual images are unique", "statement": "Virtual and external images found next to an MRC file get pairwise different names, each the name in the file or that name with a number; names without underscore are kept at their first occurrence; each name belongs to its image and no image is lost.", "quantifier": "for every list of names and every order in which the directory is listed", "why_tests_cant": "Generated names can collide with later given ones; all lists matter.", "anchors": ["rsciio/mrc/_api.py:find_related_de_files"]}
{"id": "C25", "title": "SEMPER label round trip", "statement": "The label block of a SEMPER UNF file decodes to the values it was made from: sizes, title, date, scales and offsets.", "quantifier": "for every image size up to 32767 per axis and every ASCII title up to 144 characters", "why_tests_cant": "All sizes and strings; sizes are split in base-256 digits.", "anchors": ["rsciio/semper/_api.py:SemperFormat._get_label", "rsciio/semper/_api.py:SemperFormat._read_label"]}
{"id": "C26", "title": "SEMPER picture data round trip", "statement": "Rows written by the SEMPER writer are read back as the same rows; rows of odd byte length are stored with a padding byte. The padding byte is not written.", "quantifier": "for every picture size and every of the four data types", "why_tests_cant": "Depends on the parity of the row length and the data type.", "anchors": ["rsciio/semper/_api.py:SemperFormat.save_to_unf", "rsciio/semper/_api.py:SemperFormat.load_from_unf", "rsciio/semper/_api.py:SemperFormat._read_data"]}
{"id": "C27", "title": "TVIPS file splitting keeps every frame", "statement": "Writing frames with a maximal file size terminates, writes every frame exactly once in order over the numbered files, and no file exceeds the maximal size as long as one frame fits.", "quantifier": "for every number of frames, frame size and maximal file size", "why_tests_cant": "All combinations of frame count and file size, including exact fits.", "anchors": ["rsciio/tvips/_api.py:file_writer"]}
{"id": "C28", "title": "TVIPS scan reordering is a permutation", "statement": "Reading frames into a scan grid with winding_scan_axis and hysteresis places every selected frame exactly once.", "quantifier": "for every scan shape, winding axis and hysteresis", "why_tests_cant": "All grid shapes; losing or repeating a frame is invisible in small symmetric tests.", "anchors": ["rsciio/tvips/_api.py:file_reader"]}
{"id": "C29", "title": "Reading a TVIPS series returns what was last written", "statement": "After writing a series and then a shorter series under the same name, reading returns the second series. The current code returns the leftover frames of the first series as well.", "quantifier": "for every pair of writes", "why_tests_cant": "A history property of the directory.", "anchors": ["rsciio/tvips/_api.py:file_writer", "rsciio/tvips/_api.py:file_reader"]}
{"id": "C30", "title": "12-bit pulses decode the same in both Bruker back ends", "statement": "The pure Python and the compiled unpacking of 12-bit packed pulses yield the same channels.", "quantifier": "for every byte string and every pulse count that fits in it", "why_tests_cant": "All bit patterns of 6-byte groups.", "anchors": ["rsciio/bruker/_api.py:py_parse_hypermap", "rsciio/bruker/unbcf_fast.pyx:unpack12bit"]}
{"id": "C31", "title": "Instruction-packed spectra decode the same in both Bruker back ends", "statement": "The pure Python and the compiled unpacking of instructively packed spectra yield the same spectrum as long as no 8-byte group occurs; with an 8-byte group the compiled back end differs.", "quantifier": "for every byte string that is a sequence of complete groups", "why_tests_cant": "All instruction sequences.", "anchors": ["rsciio/bruker/_api.py:py_parse_hypermap", "rsciio/bruker/unbcf_fast.pyx:unpack_instructed"]}
{"id": "C32", "title": "Reading a piece of an SFS file returns that slice", "statement": "Reading length bytes at an offset of a file stored in the chunked SFS container returns exactly that slice of the file's content, wherever the chunks lie.", "quantifier": "for every chunk placement, chunk size, offset and length within the file", "why_tests_cant": "All offsets relative to the chunk borders.", "anchors": ["rsciio/bruker/_api.py:SFSTreeItem.read_piece"]}
{"id": "C33", "title": "Iterating over SFS chunks returns the whole file", "statement": "Concatenating the chunks read from an SFS file gives the file content of exactly the recorded size.", "quantifier": "for every file size > 0 and chunk placement", "why_tests_cant": "All sizes, including exact multiples of the chunk size.", "anchors": ["rsciio/bruker/_api.py:SFSTreeItem._iter_read_chunks"]}
{"id": "C34", "title": "The SFS file table is read completely", "statement": "All entries of the SFS file table are read however many chunks the table spans. The current chunk count is too small for some tables.", "quantifier": "for every number of entries and chunk size", "why_tests_cant": "The fault depends on the remainder of the chunk size modulo 512.", "anchors": ["rsciio/bruker/_api.py:SFS_reader._setup_vfs"]}
{"id": "C35", "title": "DM tag tree parsing recovers the tree", "statement": "Parsing the byte encoding of a tag tree gives the tree back, for DM3 and DM4.", "quantifier": "for every tag tree of groups, simple values, strings, arrays and structures with non-empty dot-free distinct names", "why_tests_cant": "Trees are unbounded and sizes vary by version.", "anchors": ["rsciio/digitalmicrograph/_api.py:DigitalMicrographReader.parse_tags", "rsciio/digitalmicrograph/_api.py:DigitalMicrographReader.parse_tag_group", "rsciio/digitalmicrograph/_api.py:DigitalMicrographReader.parse_tag_header", "rsciio/digitalmicrograph/_api.py:DigitalMicrographReader.read_array", "rsciio/digitalmicrograph/_api.py:DigitalMicrographReader.read_struct"]}
{"id": "C36", "title": "Old packed complex images unpack to a Hermitian image", "statement": "Unpacking the old packed complex format gives an image A with A(i,j) = conj(A(2N-i, 2N-j)) away from the four real positions, and every packed number is used.", "quantifier": "for every N >= 1 and every packed array of the right length", "why_tests_cant": "Index arithmetic over all sizes.", "anchors": ["rsciio/digitalmicrograph/_api.py:ImageObject.unpack_packed_complex"]}
{"id": "C37", "title": "MIB loading stays inside the file", "statement": "The frames selected for loading a MIB file (from first_frame, as many as the navigation shape asks) all lie inside the file.", "quantifier": "for every file length, frame size, first and last frame (negative or missing too) and navigation shape", "why_tests_cant": "All combinations of slice bounds and shapes.", "anchors": ["rsciio/quantumdetector/_api.py:load_mib_data"]}
{"id": "C38", "title": "Loading a MIB buffer equals loading the file", "statement": "Loading from a memory buffer gives the same frames as loading from a file with the same content and options. It does not when first_frame is given.", "quantifier": "for every content and every option combination", "why_tests_cant": "Two code paths over all options.", "anchors": ["rsciio/quantumdetector/_api.py:load_mib_data"]}
{"id": "C39", "title": "All MIB headers can be parsed", "statement": "Parsing exposures or timestamps with max_index=-1 returns one entry per frame, and with max_index=n>1 the first min(n, frames) entries. With -1 the last frame is dropped.", "quantifier": "for every number of frames and every max_index", "why_tests_cant": "Documented sentinel value against Python slice semantics.", "anchors": ["rsciio/quantumdetector/_api.py:parse_exposures", "rsciio/quantumdetector/_api.py:parse_timestamps"]}
{"id": "C40", "title": "Unpickling resolves only white-listed names", "statement": "Reading a pickled array resolves a global only if its module and name are on the white list; any other name aborts reading.", "quantifier": "for every pickle stream, as a sequence of global look-ups", "why_tests_cant": "All adversarial streams.", "anchors": ["rsciio/pantarhei/_restricted_unpickling.py:RestrictedUnpickler.find_class"]}
{"id": "C41", "title": "Decimal commas in XML numbers are replaced, nothing else", "statement": "Sanitising an XML byte string changes only commas between '>digits' and 'digits<' to dots and keeps the length and all other bytes.", "quantifier": "for every byte string", "why_tests_cant": "All byte strings.", "anchors": ["rsciio/utils/xml.py:sanitize_msxml_float"]}
{"id": "C42", "title": "XML conversion keeps leaf text", "statement": "Converting an XML tree to nested dictionaries keeps every attribute and leaf text under its path. Trees with white space between tags or repeated tags lose content in the simple converter.", "quantifier": "for every XML tree", "why_tests_cant": "Trees are unbounded.", "anchors": ["rsciio/utils/xml.py:xml2dtb", "rsciio/utils/xml.py:XmlToDict.dictionarize"]}
{"id": "C43", "title": "EMPAD axes match the data", "statement": "The sizes of the axes returned for an EMPAD file are the shape of the returned data in order, and the frames are the file content without the two footer rows.", "quantifier": "for every series length or scan shape", "why_tests_cant": "All sizes, including scan lines of length one.", "anchors": ["rsciio/empad/_api.py:file_reader", "rsciio/empad/_api.py:_read_raw"]}
{"id": "C44", "title": "Saving metadata again over an existing group", "statement": "Saving metadata into a group that already holds metadata (mode 'a', or overwriting without rewriting the dataset) and reading the group gives the two dictionaries merged at every depth: the value saved last where there is one, else the value saved first. This holds when a shared key keeps its form: two scalars, two byte strings, two arrays, two lists (or tuples) of one kind of scalar, two empty lists, an array in place of a dictionary, or two dictionaries that again fit each other. So the metadata saved last is not what is read: keys that were removed stay, a value whose form changed is read back stale, and a dictionary in place of an array makes saving fail.", "quantifier": "for every pair of nested metadata dictionaries of storable values whose shared keys keep their form", "why_tests_cant": "It depends on the history of the file, for all pairs of nested dictionaries.", "anchors": ["rsciio/_hierarchical.py:HierarchicalWriter.dict2group", "rsciio/_hierarchical.py:HierarchicalReader._group2dict"]}
{"id": "C45", "title": "Saving an MSA file leaves the signal as it was", "statement": "Saving a signal does not change the signal, and saving it a second time writes the same file. This fails for signals that were read from an MSA file: the writer removes and adds entries in their original metadata, and the second file lacks keywords of the first.", "quantifier": "for every signal and every history of files written before", "why_tests_cant": "It is about two calls in sequence and about state the writer shares with its caller.", "anchors": ["rsciio/msa/_api.py:file_writer"]}
{"id": "C46", "title": "Precision of MSA spectra", "statement": "A spectrum written in the default format is read back in order with an error of at most half a millionth per value, and integers exactly. In the XY format integers below one million are exact; larger ones are not.", "quantifier": "for every spectrum of finite numbers", "why_tests_cant": "Rounding has to be right for all numbers, halves included.", "anchors": ["rsciio/msa/_api.py:file_writer", "rsciio/msa/_api.py:parse_msa_string"]}
{"id": "C47", "title": "SEMPER axes, title and date round trip", "statement": "Saving a signal in a SEMPER file and reading it gives its shape, data, title, date, time (without fraction) and axes with their sizes, scales, offsets and units back. Units are not kept when they differ between axes, and scales are shifted when an axis has length one.", "quantifier": "for every signal of one to three dimensions within the limits of the format", "why_tests_cant": "All shapes and axis orders.", "anchors": ["rsciio/semper/_api.py:SemperFormat.from_signal", "rsciio/semper/_api.py:SemperFormat.to_dictionary", "rsciio/semper/_api.py:file_writer", "rsciio/semper/_api.py:file_reader"]}
{"id": "C48", "title": "MRC volumes and axes", "statement": "Reading an MRC file gives exactly the stored numbers in the stored order with shape (NZ, NY, NX), whatever the mode, the other header fields and the length of the extended header; the axes are named after the dimensions they come from.", "quantifier": "for all sizes, modes, header contents, extended headers, both endiannesses", "why_tests_cant": "The position of the data depends on header fields; all sizes and both byte orders matter.", "anchors": ["rsciio/mrc/_api.py:file_reader", "rsciio/mrc/_api.py:get_data_type"]}
{"id": "C49", "title": "TVIPS axes fit the data", "statement": "The axes of a TVIPS dictionary have the sizes of the data, in order; scan axes come first, and the image axes dy and dx carry the image scale. This fails for a scan shape with one entry.", "quantifier": "for every series and every scan shape", "why_tests_cant": "All scan shapes, not only the usual two-dimensional one.", "anchors": ["rsciio/tvips/_api.py:file_reader"]}
{"id": "C50", "title": "Automatic TVIPS scan grids", "statement": "With automatic scan recognition every scan position gets the frame whose rotator index is the largest one not above the position, and the first such frame if the index equals the position; a square series written by the package comes back in order. Recognition of the end fails when the rotator index returns to zero after the scan.", "quantifier": "for every non-decreasing sequence of rotator indices, with gaps and repeats", "why_tests_cant": "Gaps and repeats can be anywhere.", "anchors": ["rsciio/tvips/_api.py:_find_auto_scan_start_stop", "rsciio/tvips/_api.py:_guess_scan_index_grid", "rsciio/tvips/_api.py:file_reader"]}
{"id": "C51", "title": "SFS pointer tables are read completely", "statement": "The table of chunk numbers of an SFS file is read completely and in order when it spans several linked chunks, and each number becomes the position of that chunk's data.", "quantifier": "for every chunk size that is a multiple of four, every file size and every placement of the table's chunks", "why_tests_cant": "Test files have tables that fit in one chunk.", "anchors": ["rsciio/bruker/_api.py:SFSTreeItem._fill_pointer_table"]}
{"id": "C52", "title": "The SFS directory tree holds each entry at its path", "statement": "Looking up a path finds exactly the entry whose parents' names, from the top down, and own name are that path; no other path exists. A directory listed after its content hides the content.", "quantifier": "for every table with directories listed before their content and different names in each directory", "why_tests_cant": "All tree shapes.", "anchors": ["rsciio/bruker/_api.py:SFS_reader._flat_items_to_dict", "rsciio/bruker/_api.py:SFS_reader.get_file"]}
{"id": "C53", "title": "Whole Bruker maps hold the stored counts", "statement": "Parsing a spectral map gives, in each cell, the sum of the counts stored for the pixels that fall into it, up to the width of a cell, wherever the stored map is cut into chunks and however its pixels are packed; both parsers give the same array. They differ when a pixel has no pulse in its last channel, when the last chunk is full, when a position is stored twice, and when a record is longer than a chunk.", "quantifier": "for every map, every packing of its pixels, every downsampling factor and every chunk size from 416 bytes on", "why_tests_cant": "Chunk borders can fall anywhere in a record.", "anchors": ["rsciio/bruker/_api.py:py_parse_hypermap", "rsciio/bruker/unbcf_fast.pyx:parse_to_numpy", "rsciio/bruker/unbcf_fast.pyx:bin_to_numpy", "rsciio/bruker/unbcf_fast.pyx:DataStream"]}
{"id": "C54", "title": "The estimated depth of Bruker maps holds the counts", "statement": "The cell type estimated from the sum spectrum holds every count that is not above twice the mean of the fullest channel, so that a map without larger counts is read without loss. The signed types hold the mean only, and maps with larger counts in one pixel are truncated, against the description.", "quantifier": "for every sum spectrum, map size, downsampling factor and map content", "why_tests_cant": "The bounds matter for all counts and map sizes.", "anchors": ["rsciio/bruker/_api.py:BCF_reader.estimate_map_depth", "rsciio/bruker/unbcf_fast.pyx:parse_to_numpy"]}
{"id": "C55", "title": "DM images are read back pixel by pixel, thumbnails left out", "statement": "From a Digital Micrograph file, the images of the image list that are not named as thumbnails are returned in order; pixel (x, y, ...) of an image is the stored element number x + X*(y + Y*(...)), with colours put in the order red, green, blue, alpha. It is not when the file is big-endian: numbers are then byte-swapped.", "quantifier": "for every tag tree with an image list, any numbers of images, dimensions and elements, every element type, both versions", "why_tests_cant": "Tag trees, dimensions and sizes are unbounded.", "anchors": ["rsciio/digitalmicrograph/_api.py:DigitalMicrographReader.get_image_dictionaries", "rsciio/digitalmicrograph/_api.py:ImageObject.shape", "rsciio/digitalmicrograph/_api.py:ImageObject.get_data"]}
{"id": "C56", "title": "DM axes carry the calibration of their own dimension", "statement": "Axis i of n has the size and the calibration of dimension n-1-i, defaults where calibrations are missing, and the signal axes are the last ones. With more calibrations than dimensions the axes get wrong calibrations.", "quantifier": "for every number of dimensions and calibrations", "why_tests_cant": "Two lists of any lengths, reversed.", "anchors": ["rsciio/digitalmicrograph/_api.py:ImageObject.scales", "rsciio/digitalmicrograph/_api.py:ImageObject.offsets", "rsciio/digitalmicrograph/_api.py:ImageObject.units", "rsciio/digitalmicrograph/_api.py:ImageObject.get_axes_dict", "rsciio/digitalmicrograph/_api.py:ImageObject.navigate"]}
{"id": "C57", "title": "The first MIB header gives the geometry", "statement": "Parsing a MIB file gives the numbers of rows and columns, the size of the header, the size of a number, the exposure and the time written in the first header, for single and quad detectors.", "quantifier": "for every header made of comma separated fields, with any padding and any following bytes", "why_tests_cant": "Header fields have any length and number.", "anchors": ["rsciio/quantumdetector/_api.py:MIBProperties.parse_file"]}
{"id": "C58", "title": "The scan shape is found from the times of the frames", "statement": "If the time between frames is longer at the end of each line, the guessed navigation shape has the length of the line, and a complete scan is loaded line by line with every frame once. Zero frames per trigger in the hdr file stop the reader, and frames after the last complete line are dropped.", "quantifier": "for every line length below 10000, number of lines, and pair of time differences", "why_tests_cant": "A guess based on a mean over all frames.", "anchors": ["rsciio/quantumdetector/_api.py:file_reader", "rsciio/quantumdetector/_api.py:load_mib_data"]}
{"id": "C59", "title": "MIB images are the stored pixels with rows flipped", "statement": "Pixel (r, c) of the frame at a navigation position is the big-endian number stored in row rows-1-r and column c of that frame of the file, and the axes have the sizes of the data, the last two not navigating. A detector with one row gets its frames reversed instead.", "quantifier": "for every frame size, number size, navigation shape and range of frames, detectors with at least two rows and columns", "why_tests_cant": "All shapes and files.", "anchors": ["rsciio/quantumdetector/_api.py:load_mib_data", "rsciio/quantumdetector/_api.py:file_reader"]}
{"id": "C60", "title": "Entries of hdr files are read back", "statement": "Every line 'key:<tab>value' of a hdr file gives the entry key, value, in order; the first and the last line are left out. A line without a tab stops the reader.", "quantifier": "for every list of entries with distinct keys", "why_tests_cant": "All keys and values.", "anchors": ["rsciio/quantumdetector/_api.py:parse_hdr_file"]}
{"id": "C61", "title": "The header of an npy file gives offset, shape and type", "statement": "Inspecting an npy file returns the offset of the data, the shape and the type written in its header, and reading lazily gives element number (i, j, ...) of the array for arrays in C order. Arrays stored in Fortran order are read with their elements in the wrong places.", "quantifier": "for versions 1, 2 and 3 of the format, every shape, type text without quotes, padding and following bytes", "why_tests_cant": "Header texts and shapes are unbounded; tests hold a few arrays in C order.", "anchors": ["rsciio/utils/_tools.py:inspect_npy_bytes", "rsciio/numpy/_api.py:file_reader"]}
{"id": "C62", "title": "A PantaRhei file is read the same lazily and not", "statement": "For a data entry stored without compression, the lazily read numbers are those of the eager reading. For compressed entries lazy reading returns compressed bytes as numbers.", "quantifier": "for every file with the entry at any place, any file name and extra field, any array", "why_tests_cant": "Offsets depend on two length fields of the local header of the zip entry.", "anchors": ["rsciio/pantarhei/_api.py:import_pr", "rsciio/pantarhei/_api.py:file_reader"]}
{"id": "C63", "title": "Axes of PantaRhei files keep their data and calibration", "statement": "Reading drops size-one index axes, moves navigation axes first and attaches to each axis the name and calibration listed for it; the number at each position is the one stored at the corresponding position, with EELS energy axes reversed in numbers and calibration alike. Metadata lists keep the pairing only if no axis other than the first is dropped; size-one axes without a type and more than three of them stop the reader.", "quantifier": "for every shape, every list of content types and calibrations", "why_tests_cant": "All permutations of axes in all dimensions.", "anchors": ["rsciio/pantarhei/_api.py:import_pr"]}
{"id": "C64", "title": "Signals written to PantaRhei files are read back", "statement": "Writing and reading gives the same data and the same navigation and signal axes for images with any number of navigation axes and for spectra with one or two, with axes without special names. Single spectra and spectra with three navigation axes cannot be read; axes named ScanX, ScanY or Energy come back in another order.", "quantifier": "for every shape with sizes above one and every signal", "why_tests_cant": "A relation between two functions over all shapes and names.", "anchors": ["rsciio/pantarhei/_api.py:export_pr", "rsciio/pantarhei/_api.py:get_metadata_from_axes_info", "rsciio/pantarhei/_api.py:import_pr"]}
{"id": "C65", "title": "Axes of npy files", "statement": "The axes have the sizes of the array without the axes of size one, in order, and navigate as asked. Arrays with an axis of size zero lose that axis.", "quantifier": "for every shape and choice of navigation axes", "why_tests_cant": "All shapes.", "anchors": ["rsciio/numpy/_api.py:file_reader"]}
{"id": "C66", "title": "One frame of a JEOL pts stream becomes its map", "statement": "Reading a frame adds to each cell of the map the number of X-rays that the stream lists at that line, column and channel, adds to each pixel of a map that is not wider than tall the brightnesses listed there, returns the length of the frame, and says whether the frame has an image and is complete. Words of the next frame change nothing. The reading fails only with a ValueError, and exactly if a number would reach the largest of its type.", "quantifier": "for every stream of words, every geometry, shift, and earlier content of the map", "why_tests_cant": "State over streams of any length; tests hold a few small files.", "anchors": ["rsciio/jeol/_api.py:_readframe_dense"]}
{"id": "C67", "title": "Frames of a JEOL pts stream are found and added up", "statement": "The reader finds the start of each listed frame, whichever starts are known before, uses the listed frames up to the first missing or incomplete one, and gives the sum of their maps or each map by itself. The map covers the region that all listed shifted frames cover. Every frame is given a start and a shift by the options. The image of a map that is wider than tall is scrambled, the frame axis may not have the size of the data, and offsets in x and y are swapped.", "quantifier": "for every stream, list of frames in any order, partial list of starts, and shifts", "why_tests_cant": "The starts are remembered across frames in any order; incomplete frames are subtracted again.", "anchors": ["rsciio/jeol/_api.py:_readcube", "rsciio/jeol/_api.py:_skip_frame", "rsciio/jeol/_api.py:_read_pts"]}
{"id": "C68", "title": "A JEOL pts stream gives the same map lazily", "statement": "For maps that are not taller than wide, without shifts and downsampling, with frames that start with line 0 and have an X-ray, the lazily read map is the one read at once, in 16 bits. Tall maps lose lines, downsampled ones cannot be read, frames without X-rays neither, and shifts do not apply to the first line of later frames.", "quantifier": "for every regular stream of any number of frames", "why_tests_cant": "Two different decoders are compared over all streams.", "anchors": ["rsciio/jeol/_api.py:_readframe_lazy", "rsciio/jeol/_api.py:_readcube"]}
{"id": "C69", "title": "The header and elements of a TIA ser file are read as stored", "statement": "For both widths of offsets, any dimensions with any texts, and any number type, reading a ser file gives the header and the elements (calibrations, sizes, numbers, tags, positions) that are stored at the places listed in the offset table, in the order of the table, wherever they are in the file. The table must be followed by at least one more word; otherwise the last element is left as uninitialised memory.", "quantifier": "for every header, every list of elements of one kind, and every placement in the file", "why_tests_cant": "All layouts of a binary format with variable-length parts.", "anchors": ["rsciio/tia/_api.py:get_header_dtype_list", "rsciio/tia/_api.py:get_lengths", "rsciio/tia/_api.py:get_data_dtype_list", "rsciio/tia/_api.py:load_ser_file"]}
{"id": "C70", "title": "Each number of a ser file is at its place in the data", "statement": "A map has the sizes of the dimensions, slowest first: in the order of the file, or reversed if the first two elements have the same y. Position idx of the map holds the element whose number is the row-major offset of idx; images are flipped and lose dimensions of size one. Elements that were not acquired are zero or NaN, except that a series is as long as what was acquired. Rows of images (second dimension of size one, x first) and files without dimensions cannot be read.", "quantifier": "for every number of dimensions, all sizes, every number of acquired elements", "why_tests_cant": "All shapes and all points at which an acquisition can stop.", "anchors": ["rsciio/tia/_api.py:ser_reader", "rsciio/tia/_api.py:load_only_data"]}
{"id": "C71", "title": "Axes of a ser file", "statement": "The axes have the sizes of the data, the calibration stored for their dimension, and dimensions in meters are named y, then x. Scales in meters are shown in nm, those in 1/meters in 1/nm. Offsets are not converted, so positions of an axis in nm are right only if it starts at zero.", "quantifier": "for every header and calibration, with exact arithmetic", "why_tests_cant": "All orders and units of dimensions.", "anchors": ["rsciio/tia/_api.py:ser_reader"]}
{"id": "C72", "title": "XML objects of an emi file", "statement": "All objects between the opening and closing tags are found, in order, whatever other bytes are around them, if at least one byte comes first. The ser file with digit d gets the metadata of object d. An object at the beginning of the file is missed. Date, time and units of every ser file are those of the first object.", "quantifier": "for every list of objects and every other content", "why_tests_cant": "All positions and partial tags in between.", "anchors": ["rsciio/tia/_api.py:get_xml_info_from_emi", "rsciio/tia/_api.py:emi_reader"]}
{"id": "C73", "title": "Objects of a sur file", "statement": "Every object that is written is read again: integers and byte fields exactly, floats rounded to the nearest single precision number, text up to surrounding spaces and zeros, comments and points, compressed or not. All objects are found, as many as the first header says. A private zone is not kept as bytes.", "quantifier": "for every list of objects whose fields fit, for every compression that can be undone", "why_tests_cant": "All 59 header fields, numbers of objects and streams of compressed points.", "anchors": ["rsciio/digitalsurf/_api.py:DigitalSurfHandler"]}
{"id": "C74", "title": "Integer signals written to sur and pro files", "statement": "A signal of integers or colours that is written is read with the same shape, axes and values: surfaces, profiles, spectra, spectral maps, and series of surfaces, profiles or images with colours. Colours become an axis. Surfaces are exact for all integers; other signals if the least value is at most 2^24 in absolute value. Series of one spectrum, spectra of one point and series with colours of 16 bits are not kept.", "quantifier": "for every signal of these kinds, with special points or not, compressed or not", "why_tests_cant": "All sizes, types of numbers and kinds of signals; values at the limits of the types.", "anchors": ["rsciio/digitalsurf/_api.py:DigitalSurfHandler"]}
{"id": "C75", "title": "Precision of floats in sur and pro files", "statement": "Double precision data are read with the same shape and axes; missing values stay missing; each value is within (M - m + |m|)/2^23 + 2^-117 of the one written, where m and M are the least and greatest. Not so for surfaces of one integral value, for scale and offset that are integers, for float32 data, whose greatest value can become the least, and for missing values without special points.", "quantifier": "for every list of numbers up to 2^120 that are not all the same", "why_tests_cant": "Rounding of all numbers, in scaling and in the header.", "anchors": ["rsciio/digitalsurf/_api.py:DigitalSurfHandler"]}
{"id": "C76", "title": "Metadata of sur and pro files", "statement": "Name and unit of the values are found again in the quantity made of them. Date and time are written again as read. Each key of the original metadata has the header of its own object if there is one channel or one object. Not so for names of two words without a unit (cathodoluminescence loses its signal type), for units without a name, for midnight (the file cannot be written again) and for several objects of several channels.", "quantifier": "for every name, unit, date and number of objects and channels", "why_tests_cant": "All text with spaces and brackets, all numbers of objects and channels.", "anchors": ["rsciio/digitalsurf/_api.py:DigitalSurfHandler"]}
{"id": "C77", "title": "Comments of sur and pro files", "statement": "A dictionary of sections written as a comment is read with the same sections, keys, values and units, in the same order, also through a file, and is written again the next time. Not so for values with spaces or equals signs, keys starting with an underscore, text that looks like a number, inner dictionaries, and sections named like units.", "quantifier": "for every list of sections whose keys and values have one line, without spaces in values", "why_tests_cant": "All combinations of keys, values, units and sections.", "anchors": ["rsciio/digitalsurf/_api.py:parse_metadata", "rsciio/digitalsurf/_api.py:DigitalSurfHandler"]}
{"id": "C78", "title": "Fields of EDAX spectrum headers are read from their places for every version of the format", "statement": "spc_reader of the EDAX plugin describes the header by a list of NumPy fields that depends on the version number at its start. For every file of sufficient length, the fields used for data and metadata (version, number of points, energy per channel, azimuth, elevation, detector resolution, live time, beam energy, tilt, elements) have the value of the bytes at the offset of the file format, whether the whole header or only its start is read; the spectrum is the number of 32-bit words given in the header after a header whose length depends on the version; elements are atomic numbers turned into symbols in alphabetical order, each once; a file cut inside the header, or with an unknown version, gives an error and not a wrong spectrum.", "quantifier": "for every file, byte order, version and choice of header fields", "why_tests_cant": "Layouts have more than 100 fields, and tests have files of few versions; offsets of all fields used and all files are needed.", "anchors": ["rsciio/edax/_api.py:get_spc_dtype_list", "rsciio/edax/_api.py:__get_spc_header", "rsciio/edax/_api.py:_add_spc_metadata", "rsciio/edax/_api.py:spc_reader"]}
{"id": "C79", "title": "EDAX spectrum images have the spectra and axes stored in their files", "statement": "si_reader of the EDAX plugin, for every map with 1, 2 or 4 bytes per count and complete data, gives an array of lines, points and channels whose element (y, x, e) is the number at offset + ((y * nPoints + x) * nChannels + e) * countBytes; the lazy array is the same; positions are scaled by the .ipr file and energies by the .spc file if these exist; incomplete data give an error.", "quantifier": "for every file, size, width of counts, pair of other files, lazy or not", "why_tests_cant": "All sizes and combinations of files; order of bytes in lazy and eager mode.", "anchors": ["rsciio/edax/_api.py:si_reader", "rsciio/edax/_api.py:get_spd_dtype_list", "rsciio/edax/_api.py:__get_ipr_header"]}
{"id": "C80", "title": "EDAX line scans have the spectra recorded and positions of their csv file", "statement": "si_reader of the EDAX plugin, for a line scan (.lsd), keeps the first nSpectra spectra; its axis has the first position and the first step of the column Distance (nm) of the .csv file, whatever the other columns, or no calibration without .csv file; the .spc and .csv files searched for by default are next to the line scan and have its name.", "quantifier": "for every file, number of spectra recorded, table of positions and file name", "why_tests_cant": "All numbers of spectra, all tables and all paths.", "anchors": ["rsciio/edax/_api.py:si_reader"]}
{"id": "C81", "title": "The blocks and the header of Renishaw files are found wherever they are", "statement": "locate_all_blocks of the Renishaw plugin, for every file that is a sequence of blocks (four characters, a number, a size, contents), lists each block under its name (without blanks) and number with the position and size of its contents; bytes that are no text after the last block do not change this; a file cut inside a block lists the blocks including the one that was cut; every field of the header is the number or text at its offset.", "quantifier": "for every list of blocks with different names, every contents, cut and header", "why_tests_cant": "Files have dozens of block types in any order; tests have a few files. Cuts at all places cannot be tested.", "anchors": ["rsciio/renishaw/_api.py:WDFReader.locate_all_blocks", "rsciio/renishaw/_api.py:WDFReader._parse_WDF1"]}
{"id": "C82", "title": "Sets of properties of Renishaw files become dictionaries of their names and values", "statement": "_pset_read_metadata of the Renishaw plugin turns a set of properties, nested to any depth, into the dictionary that has, for each name in the set, the value with the same number: numbers, arrays, dates, text, binary data in hexadecimal digits, None for compressed text and dictionaries for nested sets. Exactly the bytes of the set are read; names and values without partner are kept aside under the name of their set; a complete set leaves nothing aside.", "quantifier": "for every set of properties, nested to any depth, in any order of names and values", "why_tests_cant": "The encoding is recursive with eleven types and three flags; tests see a few files only.", "anchors": ["rsciio/renishaw/_api.py:WDFReader._pset_read_metadata", "rsciio/renishaw/_api.py:WDFReader._pset_match_keys_and_values", "rsciio/renishaw/_api.py:WDFReader._pset_read_entry"]}
{"id": "C83", "title": "Spectra of Renishaw files get the shape and axes of their measurement", "statement": "read_file of the Renishaw plugin: a map of ny lines of nx points has the shape (ny, nx, points), its spectra in the order of the file and axes with offsets and steps of the WMAP block; of an unfinished map all complete lines are kept; points on a line have their distance as axis; a series has the axis of its only origin; a single measurement is one spectrum (the mean of several); if the signal axis of the file decreases (comparison of single precision numbers) axis and spectra are both reversed.", "quantifier": "for every file without metadata blocks, all sizes, origins, units, axes and spectra", "why_tests_cant": "All combinations of measurement type, number of spectra, state and order of axis.", "anchors": ["rsciio/renishaw/_api.py:WDFReader._parse_XLST", "rsciio/renishaw/_api.py:WDFReader._parse_ORGN", "rsciio/renishaw/_api.py:WDFReader._parse_WMAP", "rsciio/renishaw/_api.py:WDFReader._set_nav_axes", "rsciio/renishaw/_api.py:WDFReader._reshape_data"]}
{"id": "C84", "title": "Dates and acquisition parameters of Renishaw files are those recorded", "statement": "Dates of Renishaw files are the number of 100 ns steps since 1601 in the Gregorian calendar, split in date and time; each metadata block is stored under its name; the keys looked up in nested metadata are the first of that name in reading order; laser wavenumber, grating, detector and exposure are the values so found; names of the WXDM block that have no value at the top level name the values of the sets inside.", "quantifier": "for every date, every nested metadata, every set of unmatched names and values", "why_tests_cant": "All days of a 400 year cycle; arbitrary nesting.", "anchors": ["rsciio/renishaw/_api.py:convert_windowstime_to_datetime", "rsciio/renishaw/_api.py:_find_key", "rsciio/renishaw/_api.py:WDFReader._map_WXDM", "rsciio/renishaw/_api.py:WDFReader._match_WXDM_values", "rsciio/renishaw/_api.py:WDFReader.map_metadata"]}
{"id": "C85", "title": "Traces of Quadstar SAC files have the samples, axes and texts of the file", "statement": "Every trace header of type 17 of a SAC file, in order, gives a signal of shape (steps, masses times samples per mass), or without the first dimension if there is one step; sample j of step n is the word at the data position plus n step lengths, replaced by nan if its value is above the power of ten of the step's exponent; the mass axis starts at the first mass with a step of 1 / samples per mass; the time axis has the mean step, or the times since the first step; title, units and comment are the text without trailing zeros and surrounding white space.", "quantifier": "for every file of which the described parts lie inside, every exponent up to 308, every sample", "why_tests_cant": "Every bit pattern of samples, exponents and positions; tests see two recorded files.", "anchors": ["rsciio/quadstar/_api.py:_read_sac_file", "rsciio/quadstar/_api.py:_read_trace_headers", "rsciio/quadstar/_api.py:_read_trace_info", "rsciio/quadstar/_api.py:_decode_bytes"]}
{"id": "C86", "title": "Cycles of Quadstar SBC files are taken from the end of the file", "statement": "A SBC file of n cycles ends with n blocks of 13 bytes and width + 1 pairs of mass and intensity; the signal has all intensities in order, its mass axis goes from the first to the last mass of the first cycle and its time axis from 0 with the mean step of the times; other sizes are refused. A date is given exactly if the six bytes of the header are a day of the calendar and a time of the day.", "quantifier": "for every file of bytes of at least 205 bytes, both kinds of time axis, every name", "why_tests_cant": "All numbers of cycles and masses, all dates including leap years and impossible ones.", "anchors": ["rsciio/quadstar/_api.py:_read_sbc_file", "rsciio/quadstar/_api.py:_build_datetime", "rsciio/quadstar/_api.py:file_reader"]}
{"id": "C87", "title": "Scans of Topspin files have the shape, steps and order of their points", "statement": "For a group of patterns numbered line by line with increasing y, each with its position, the axes y and x have the number of lines and points, the lowest positions as offset and the steps rounded to 1/1000 nm as scale (also when the whole group must be read); axes ky and kx have size, scale, offset and units of the first pattern; the data are the patterns in the order of their numbers, each from its own place in the file; scan axes of one point are removed.", "quantifier": "for all numbers of lines and points, positions, steps, sizes and places of patterns, any order of names", "why_tests_cant": "Sizes with an odd number of points take another path; names are sorted as texts; all shapes.", "anchors": ["rsciio/topspin/_api.py:_get_4D_axes", "rsciio/topspin/_api.py:file_reader"]}
{"id": "C88", "title": "Datasets and metadata of Topspin files are all read", "statement": "In a file of one session, of several sessions, or in a chosen session, exactly the datasets whose name has groups of 8, 4, 4, 4 and 12 letters are read, in order, each with the metadata of its session; a scan chosen by its address is read alone; the metadata are the branches of the session's text with items converted by their type; date, title and notes are those of the metadata.", "quantifier": "for all sessions, names, metadata and datasets", "why_tests_cant": "Arbitrary trees of metadata and files.", "anchors": ["rsciio/topspin/_api.py:file_reader", "rsciio/topspin/_api.py:_parse_app5_xml", "rsciio/topspin/_api.py:_parse_hspy_meta", "rsciio/topspin/_api.py:_get_2D_axes"]}
{"id": "C89", "title": "Pixels and axes of Hamamatsu streak images are read exactly", "statement": "The header, comment and pixels of a file of 8, 16 or 32 bit pixels are read from their bytes; axes are counted in pixels, or read from tables of single precision numbers anywhere in the file; wavelengths that fall are reversed together with every line, so each pixel keeps its wavelength; other kinds of pixels and tables that do not fit the image are errors.", "quantifier": "for all headers, comments, sizes, pixels and tables", "why_tests_cant": "Tests have a few sample images; the layout of bytes and the reversal hold for all sizes.", "anchors": ["rsciio/hamamatsu/_api.py:parse_file", "rsciio/hamamatsu/_api.py:_parse_calibration_data", "rsciio/hamamatsu/_api.py:_set_axis", "rsciio/hamamatsu/_api.py:_reshape_data", "rsciio/hamamatsu/_api.py:file_reader"]}
{"id": "C90", "title": "The comment of Hamamatsu streak images is parsed back", "statement": "A comment of named sections, with keys and values in quotes or plain, or of plain text, is read as exactly these sections, keys and values, for all values allowed in the notation.", "quantifier": "for all sections, keys and values", "why_tests_cant": "Values with commas, brackets, equals signs and quotes interact with the counting parser.", "anchors": ["rsciio/hamamatsu/_api.py:_split_sections_from_comment", "rsciio/hamamatsu/_api.py:_extract_entries_from_section", "rsciio/hamamatsu/_api.py:_get_range_for_val", "rsciio/hamamatsu/_api.py:_process_comment"]}
{"id": "C91", "title": "Metadata of Hamamatsu streak images come from the comment", "statement": "Dates are put as year-month-day; the exposure time in seconds is multiplied by the number of exposures; binning, corrections, acquisition mode, time range, gratings, title and quantity are those of the comment, and missing or unreadable entries are left out.", "quantifier": "for all comments", "why_tests_cant": "Each optional entry may be missing, malformed or of another unit, in all combinations.", "anchors": ["rsciio/hamamatsu/_api.py:_map_general_md", "rsciio/hamamatsu/_api.py:_map_signal_md", "rsciio/hamamatsu/_api.py:_map_detector_md", "rsciio/hamamatsu/_api.py:_map_spectrometer_md"]}
{"id": "C92", "title": "Jobin Yvon files have one axis per dimension, and signal values follow the axis", "statement": "Navigation axes with at least two values are uniform, the slow one first; the signal axis is increasing, and when the file has it decreasing every row of the data is reversed with it; name and units follow from the units of the file; the shape is that of the axes, every row of the file is at its position, and rows that do not fit are an error.", "quantifier": "for all xml files with one signal axis, optional navigation axes and rows of numbers", "why_tests_cant": "Maps, line scans and single spectra, with axes of one value in each place, in both directions.", "anchors": ["rsciio/jobinyvon/_api.py:parse_file", "rsciio/jobinyvon/_api.py:_set_nav_axis", "rsciio/jobinyvon/_api.py:_set_signal_axis", "rsciio/jobinyvon/_api.py:_sort_nav_axes", "rsciio/jobinyvon/_api.py:_get_data"]}
{"id": "C93", "title": "Metadata of Jobin Yvon files are the entries of the file", "statement": "Every entry has its first text, or the second for laser, spectrometer, filter, grating and objective; listed entries become numbers; grating and filter are renamed; each path of the metadata has the value of its entry, optical density and slit are hundredths, the integration time is accumulations times acquisition time, and date, quantity, angle and glued spectra follow their entries. No other path occurs.", "quantifier": "for all lists of entries", "why_tests_cant": "Entries are optional, of two kinds of texts, and in any order.", "anchors": ["rsciio/jobinyvon/_api.py:_get_metadata_values", "rsciio/jobinyvon/_api.py:_clean_up_metadata", "rsciio/jobinyvon/_api.py:get_original_metadata", "rsciio/jobinyvon/_api.py:map_metadata"]}
{"id": "C94", "title": "Heater logs of DENS hold every row of the file at times that go on over midnight", "statement": "The signal holds the measured temperatures of all rows in order; when times fall, all later times are a day later, so times of one day never fall; date, time, calibration and version are those of the first lines, and only files of this form are read.", "quantifier": "for all texts of logs, dates, times of day and rows", "why_tests_cant": "Logs over midnight are long, and dates and times have many forms of texts.", "anchors": ["rsciio/dens/_api.py:file_reader", "rsciio/dens/_api.py:_cnv_time", "rsciio/dens/_api.py:_bad_file"]}
{"id": "C95", "title": "Logs of Protochips hold every column of the file with its own units, calibration and notes", "statement": "Parameters are read from the notes of the header; the last one of each kind counts; each column after the first two is a signal of all rows with the units of its parameter; the step is the mean of the steps of the times, in seconds; notes with their times are kept when they are not empty.", "quantifier": "for all files of the layout: names, parameters in any order, rows and notes", "why_tests_cant": "Parameters are recognised by parts of their names, and headers end in different ways.", "anchors": ["rsciio/protochips/_api.py:ProtochipsCSV._parse_header", "rsciio/protochips/_api.py:ProtochipsCSV._read_header", "rsciio/protochips/_api.py:ProtochipsCSV._read_data", "rsciio/protochips/_api.py:ProtochipsCSV._parse_metadata_header", "rsciio/protochips/_api.py:ProtochipsCSV.get_dictionary"]}
{"id": "C96", "title": "Logs of Impulse hold every column of the file, with positions of valves as one number", "statement": "Column names are cleaned in one way for all texts; each column after the first two is a signal of all rows; the positions of three valves become one number that is different for different positions from -2 to 7; units are the final word in parentheses; metadata are the rows of the metadata file, and notes the lines after it.", "quantifier": "for all files of the layout: names, rows, positions of valves and metadata", "why_tests_cant": "Numbers of valves are written into cells of limited width, and names are changed in several steps.", "anchors": ["rsciio/impulse/_api.py:ImpulseCSV._read_data", "rsciio/impulse/_api.py:ImpulseCSV._read_metadatafile", "rsciio/impulse/_api.py:ImpulseCSV._parse_quantity_units", "rsciio/impulse/_api.py:ImpulseCSV.get_dictionary"]}
{"id": "C97", "title": "Arina files are one scan of all images of all datasets, binned and flatfielded exactly", "statement": "The shape of the scan is the given one, completed by division, or square, and must hold exactly all images of all datasets; the image at each position is the image of the file at that number; binning gives the mean of each block of pixels; the flatfield divides by each pixel and multiplies by its median, and leaves pixels with 0 alone; the pixel size is given in angstrom.", "quantifier": "for all numbers and sizes of datasets, scans, bins, types and flatfields", "why_tests_cant": "Scans are split over several datasets of any sizes; tests have one or two.", "anchors": ["rsciio/arina/_api.py:file_reader", "rsciio/arina/_api.py:_process_dataset", "rsciio/arina/_api.py:bin2D"]}
{"id": "C98", "title": "Axes and calibration of netCDF files are those of the attributes of the data cube", "statement": "The data are the cube with reversed axes; each axis has its size, its name by kind of data and number of dimensions, and scale, offset and units from its attributes when all axes have them; calibration, acquisition and treatments are the attributes listed; other versions and lazy reading are refused.", "quantifier": "for all cubes, attributes and kinds of data", "why_tests_cant": "Attributes are optional in all combinations, scalars or arrays.", "anchors": ["rsciio/netcdf/_api.py:file_reader", "rsciio/netcdf/_api.py:nc_hyperspy_reader_0dot1"]}
{"id": "C99", "title": "TriVista files hold all frames in order of the scan, with axes of their calibration", "statement": "Every value of every frame is at its place in the array, whose shape is the number of points of Y, X and wavelengths; axes have start, step and number of the scan, or the time in seconds between the first two frames; wavelengths are those of the list of the file; scans with several frames per point, and values that do not fill the axes, are refused; glued spectra can be read as one signal for each part.", "quantifier": "for all documents: numbers of frames, points and parts, time stamps and texts of numbers", "why_tests_cant": "Shapes, frames and glued parts combine in many ways, and only some of them are stored as tests.", "anchors": ["rsciio/trivista/_api.py:TrivistaTVFReader.parse_data", "rsciio/trivista/_api.py:TrivistaTVFReader.set_axes", "rsciio/trivista/_api.py:TrivistaTVFReader.set_signal_axis", "rsciio/trivista/_api.py:TrivistaTVFReader.reshape_data", "rsciio/trivista/_api.py:file_reader"]}
{"id": "C100", "title": "Metadata of TriVista files name every group, and the devices that were used", "statement": "Groups of one name are numbered and none is lost; the light source, detector, objective, spectrometers and gratings kept are the last ones that fit wavelength, name, switch, serial number and groove density; date, exposure, integration time, overlap, wavelengths, slits and blaze are the entries of the file in the units of the metadata.", "quantifier": "for all lists of groups at any depth, all hardware and all entries", "why_tests_cant": "Hardware lists and groups are of any length and order; tests have a few files of one laboratory.", "anchors": ["rsciio/trivista/_api.py:_process_info_serialized", "rsciio/trivista/_api.py:TrivistaTVFReader._filter_laser_metadata", "rsciio/trivista/_api.py:TrivistaTVFReader._filter_spectrometers_metadata", "rsciio/trivista/_api.py:TrivistaTVFReader.map_metadata"]}
{"id": "C101", "title": "Pixels, colours and calibration of images", "statement": "A grey image is read as its values, an image in colours with all of its channels and bits; each axis has the size, field of view, origin and unit of its direction; other numbers of channels, other depths and other unit codes are refused.", "quantifier": "for all arrays of any shape and values and all exif tags", "why_tests_cant": "Tests write images with random colours; grey-looking images, images of one row and all unit codes are not tried.", "anchors": ["rsciio/image/_api.py:_read_data", "rsciio/image/_api.py:file_reader", "rsciio/utils/_image.py:_parse_axes_from_metadata"]}
{"id": "C102", "title": "Writing images and reading them again", "statement": "Without options an image is written as its array and read again with the same values and colours; with options the figure has the size of the image, of the width asked for with the ratio of the image and the aspect, or the sizes given; a scale bar is drawn exactly if both axes have the same units and scales within a tenth of a pixel.", "quantifier": "for all images, axes, sizes, aspects and formats", "why_tests_cant": "Tests draw a few sizes; the tolerance, aspects and refusals depend on arbitrary numbers.", "anchors": ["rsciio/image/_api.py:file_writer", "rsciio/image/_api.py:_read_data"]}
{"id": "C103", "title": "Stacks in MRCZ files", "statement": "Axes z, y and x have the size, position and pixel size of their own dimension; the metadata are the entries of the header that are not in the fixed list, in order; scales, and units when all axes have the same, are kept by writing and reading.", "quantifier": "for all headers, shapes, pixel sizes and units", "why_tests_cant": "Tests use stacks with one unit and header of one library version; missing entries and two axes are not tried.", "anchors": ["rsciio/mrcz/_api.py:file_reader", "rsciio/mrcz/_api.py:file_writer"]}
{"id": "C104", "title": "Signals of USID datasets", "statement": "Each axis has the name, units, number of values, slope and first value of its dimension, in the order of the N-dimensional form; dimensions of one value are left out, so that axes and array fit; descriptors are split into quantity and units; compound datasets give one signal for each field; parameters are those of the channel; one dataset or all can be read.", "quantifier": "for all datasets: labels in any order, values, units, descriptors and fields", "why_tests_cant": "Orders of labels, descriptors and numbers of dimensions combine freely; tests have a few fixed ones.", "anchors": ["rsciio/usid/_api.py:_get_dim_dict", "rsciio/usid/_api.py:_assemble_dim_list", "rsciio/usid/_api.py:_split_descriptor", "rsciio/usid/_api.py:_usidataset_to_signal_dict", "rsciio/usid/_api.py:file_reader"]}
{"id": "C105", "title": "Writing USID files and reading them again", "statement": "Every entry of the metadata becomes one parameter named by all of its keys; each axis becomes a dimension with its name, units and values, or defaults; each element is in the row of its position and the column of its place in the spectrum; reading again gives axes with the same names, units, sizes, scales and offsets and the same elements, without the axes of one point.", "quantifier": "for all trees of metadata, axes, shapes and data, and any order of labels in the file", "why_tests_cant": "Trees, shapes and names are unbounded; tests write a handful of small signals.", "anchors": ["rsciio/usid/_api.py:_flatten_dict", "rsciio/usid/_api.py:_axes_list_to_dimensions", "rsciio/usid/_api.py:file_writer"]}
{"id": "C106", "title": "Numbers, texts and detector metadata of ELID files", "statement": "Numbers of any length (seven bits a byte), fixed-size numbers, texts, lists, elements, families and oxides are read from what was stored, and reading goes on right behind; so are the metadata of a detector, of which more is stored in each later version of the file.", "quantifier": "for all numbers, texts and contents, all versions and whatever follows", "why_tests_cant": "A misread length shifts everything behind it; tests have a few files of some versions.", "anchors": ["rsciio/phenom/_api.py:_read_varuint32", "rsciio/phenom/_api.py:_read_string", "rsciio/phenom/_api.py:_read_oxide", "rsciio/phenom/_api.py:element_symbol", "rsciio/phenom/_api.py:_read_eds_metadata"]}
{"id": "C107", "title": "Analyses of ELID files", "statement": "Each stored analysis becomes one signal: its counts in the stored order by point and by row, column and bin, real and live times for each point or one for all, the axis of energies, title, date, and the image's metadata with those of the detector; a file gives the signals of its images, each followed by those of its analyses, in stored order.", "quantifier": "for all files of versions up to 4 with any number of images and analyses of any kind and size", "why_tests_cant": "Kinds of analyses, versions and sizes combine freely; tests have a handful of files.", "anchors": ["rsciio/phenom/_api.py:_read_CommonAnalysis", "rsciio/phenom/_api.py:_read_LineScanAnalysis", "rsciio/phenom/_api.py:_read_MapAnalysis", "rsciio/phenom/_api.py:_read_Analysis", "rsciio/phenom/_api.py:_read_Project"]}
{"id": "C108", "title": "Pictures and units of ELID files", "statement": "The XML tag of a picture becomes nested dictionaries, where the last of several children of a name counts; pixel sizes with units of any prefix give the field size and the scales of the axes; lengths between a nanometre and a metre are shown as a number above 1 and up to 1000, in a unit that stands for its factor.", "quantifier": "for all XML trees, units, shapes and lengths", "why_tests_cant": "Trees and lengths are unbounded; tests compare a few pictures.", "anchors": ["rsciio/phenom/_api.py:_read_tiff", "rsciio/phenom/_api.py:_get_unit_factor", "rsciio/phenom/_api.py:_get_unit", "rsciio/phenom/_api.py:_make_image_dict"]}
{"id": "C109", "title": "Axes of Delmic files", "statement": "Lengths and times from 1e-15 up to 1 are shown as a number of at least 1 and below 1000 in a unit whose prefix stands for the factor; pixels along X, Y and Z are placed so that the stored offset is the middle, Y going up; wavelengths and times are the stored ones; angles are numbered; dimensions without a scale or of an unknown label have only a name.", "quantifier": "for all scales, offsets, sizes and labels", "why_tests_cant": "Sizes and magnitudes are unbounded; tests compare a few recorded files.", "anchors": ["rsciio/delmic/_api.py:get_unit_prefix", "rsciio/delmic/_api.py:unit_factor", "rsciio/delmic/_api.py:make_axes"]}
{"id": "C110", "title": "Acquisitions of Delmic files", "statement": "The kind of an acquisition follows from the number of wavelengths, angles and times, the pole position and the title, and is one only; valid values and no others are kept as metadata; the acquisitions of the kinds asked for are returned grouped by kind in a fixed order and otherwise as stored; angle-resolved images of one polarization which fill the scan become one array in which the image at line y and column x is the one acquired at that turn, and are otherwise returned one by one.", "quantifier": "for all files: any number of acquisitions of any kinds, polarizations, dates and sizes", "why_tests_cant": "Kinds, orders of dates and numbers of images combine freely; tests have one file for each kind.", "anchors": ["rsciio/delmic/_api.py:guess_signal_type", "rsciio/delmic/_api.py:make_original_metadata", "rsciio/delmic/_api.py:merge_ar_data", "rsciio/delmic/_api.py:file_reader"]}
{"id": "C111", "title": "Dimensions of Delmic signals", "statement": "After removing dimensions of one position and reordering, axes and array fit, the axes are those with more positions in the order of display, unknown ones last as they were, and every element is found under the same coordinates by name.", "quantifier": "for all shapes, orders of axes and elements, with distinct names of the axes", "why_tests_cant": "A wrong permutation keeps all values and, for equal sizes, the shape; tests check shapes.", "anchors": ["rsciio/delmic/_api.py:squeeze_dimensions", "rsciio/delmic/_api.py:reorder_dimensions"]}
{"id": "C112", "title": "Writing and reading EMD files of the Berkeley kind", "statement": "A signal written and read again has its elements, shape, title, the notes on microscope, sample, user and comments, and for each axis its index, size, name, units, offset and scale; for titles without slash and _depth, and units without underscore, closing bracket or line break.", "quantifier": "for all signals of any dimension, elements and axes", "why_tests_cant": "The array is transposed twice and the dimensions are numbered backwards; a wrong order is invisible for square data or equal axes; tests have a few shapes.", "anchors": ["rsciio/emd/_emd_ncem.py:EMD_NCEM.write_file", "rsciio/emd/_emd_ncem.py:EMD_NCEM._write_signal_to_group", "rsciio/emd/_emd_ncem.py:EMD_NCEM.read_file"]}
{"id": "C113", "title": "Signals of EMD files of the Berkeley kind", "statement": "The datasets read are those with a known name in a marked group; each axis of a result is described by the dimension of the stored axis its elements come from, with the mean step as scale; datasets are stacked by classes of group names, the element k, i of a stack is the element i of the k-th dataset; without stacking there is one signal for each path.", "quantifier": "for all files: any number of groups, datasets, dimensions and elements, numbered from 0 or 1", "why_tests_cant": "Group names, the order of datasets and dimension numbering combine freely; tests read a few recorded files.", "anchors": ["rsciio/emd/_emd_ncem.py:EMD_NCEM.find_dataset_paths", "rsciio/emd/_emd_ncem.py:EMD_NCEM._read_data_from_groups", "rsciio/emd/_emd_ncem.py:EMD_NCEM._parse_axis"]}
{"id": "C114", "title": "Simulations, versions and units in EMD files of the Berkeley kind", "statement": "The depth axis of a stack of a simulation has the scale, offset and units of its slices if they add up to the cell, and none otherwise; parameters have their long names; a file is of this kind iff some version with both numbers is there; units in brackets, and A and A^-1, are read as the units library knows them.", "quantifier": "for all parameters, titles, versions and units", "why_tests_cant": "The tolerance and the special start 0 depend on exact values; tests have one simulation.", "anchors": ["rsciio/emd/_emd_ncem.py:EMD_NCEM._parse_original_metadata", "rsciio/emd/_emd_ncem.py:EMD_NCEM._parse_attribute", "rsciio/emd/_api.py:is_EMD_NCEM"]}
{"id": "C115", "title": "Peak counts reconstructed from Tofwerk events", "statement": "The count of a pixel and a peak is the number of its events whose mass belongs to the peak, divided (rounding down) by the waveforms per spectrum times the active channels; an event belongs to the window that begins last among those beginning at or below its mass, if that reaches it, so with windows apart to the window it is in; the compiled and the plain path agree.", "quantifier": "for all peaks, masses, ratios other than zero, rows of events of any lengths, both paths", "why_tests_cant": "Sorting, searching, flattening and undoing the order must fit together for every table; tests compare a few synthetic events, and never overlapping windows.", "anchors": ["rsciio/tofwerk/_reconstruction.py:compute_peak_data_from_eventlist", "rsciio/tofwerk/_reconstruction.py:_accumulate_peak_counts", "rsciio/tofwerk/_reconstruction.py:_flatten_event_row", "rsciio/tofwerk/_reconstruction.py:count_active_channels", "rsciio/tofwerk/_api.py:_compute_peak_data_from_file"]}
{"id": "C116", "title": "Peaks of Tofwerk files", "statement": "Each peak of the kind asked for, with a mass in the range, is there once; position k of the data is that of the peak whose mass is at position k of the axis, at the depth from the start of the range; nominal peaks are in the order of the file, others by mass.", "quantifier": "for all tables of peaks, ranges of masses and depths, arrays stored or reconstructed, unsorted tables with equal masses", "why_tests_cant": "Three ways of reading columns reorder differently; a wrong order would only exchange channels.", "anchors": ["rsciio/tofwerk/_api.py:file_reader", "rsciio/tofwerk/_api.py:_split_peak_table"]}
{"id": "C117", "title": "Signals of Tofwerk files", "statement": "The signals are those asked for which the file has, each once in a fixed order, and with all those that are listed as available; unknown or missing ones and wrong ranges are errors. The sum spectrum and its axis begin at one sample, the first from which masses grow; events begin at the start of the range; images are those of the most common shape in the order of their names.", "quantifier": "for all files, lists of names, ranges and masses", "why_tests_cant": "Combinations of names, missing groups and ranges are too many; ties of shapes and of masses are not in test files.", "anchors": ["rsciio/tofwerk/_api.py:file_reader", "rsciio/tofwerk/_api.py:available_signals", "rsciio/tofwerk/_api.py:_is_tofwerk_file"]}
{"id": "C118", "title": "Axes of Nexus data", "statement": "Each dimension has one axis: names stand for dimensions in their order or by the positions given for them; evenly ascending values give their first value, step and units, and every stored value back, within the tolerance; a dot is a dimension without description; an unknown name, a position twice, no values or a number for a name are errors.", "quantifier": "for all data shapes, names, positions and values of the axes", "why_tests_cant": "Positions, dots and missing names combine freely, and the spacing test depends on exact values; tests read a few files.", "anchors": ["rsciio/nexus/_api.py:_get_nav_list"]}
{"id": "C119", "title": "Data found in Nexus files", "statement": "What is found are the NXdata groups with a signal and the datasets of more than one element not being text, at any depth; with only hard links, those which are neither linked nor below a link; keys and absolute paths select by part of a path or a whole one, each path once; a path found leads to what was found.", "quantifier": "for all trees of groups, datasets, links and attributes, all lists of keys and paths", "why_tests_cant": "Depth, links and selections combine; tests have trees of a few groups.", "anchors": ["rsciio/nexus/_api.py:_find_data", "rsciio/nexus/_api.py:_getlink", "rsciio/nexus/_api.py:_check_search_keys", "rsciio/nexus/_api.py:_text_split"]}
{"id": "C120", "title": "Metadata in Nexus files", "statement": "A dictionary of texts, numbers, arrays, lists and dictionaries with notes, written as a collection, is read as it was, without the keys to skip and, if asked, without arrays; searching by words gives exactly the values with a word in their path, at their places.", "quantifier": "for all nested dictionaries of any depth with distinct keys, other than the listed exceptions, all lists of words", "why_tests_cant": "Nesting, notes and words are unbounded; tests have a few dictionaries.", "anchors": ["rsciio/nexus/_api.py:_write_nexus_groups", "rsciio/nexus/_api.py:_write_nexus_attr", "rsciio/nexus/_api.py:_load_metadata", "rsciio/nexus/_api.py:_find_search_keys_in_dict", "rsciio/nexus/_api.py:_parse_from_file", "rsciio/nexus/_api.py:_parse_to_file"]}
{"id": "C121", "title": "Writing and reading Nexus files", "statement": "Any number of signals written to a file are read in their order, each with its elements, for each axis its index, size, name, units, offset, scale and role, its title, its other metadata, and the original metadata if saved.", "quantifier": "for all lists of signals of any dimension, with axes named or not, distinct names, ascending values, and one or two signal axes at the end", "why_tests_cant": "Tests write a few signals and compare some entries.", "anchors": ["rsciio/nexus/_api.py:file_writer", "rsciio/nexus/_api.py:_write_signal", "rsciio/nexus/_api.py:_write_nexus_groups", "rsciio/nexus/_api.py:file_reader", "rsciio/nexus/_api.py:_nexus_dataset_to_signal"]}
{"id": "C122", "title": "Signals read from Velox files", "statement": "Reading gives the single spectra, then the images, then the spectrum images of EELS and of EDS, as many of each as the file has and the selection asks for; an unknown selection is refused.", "quantifier": "for all files with any number of images, spectra, streams and cubes, all options", "why_tests_cant": "Kinds, selection and summing of detectors combine; tests read fixed files.", "anchors": ["rsciio/emd/_emd_velox.py:FeiEMDReader._read_data", "rsciio/emd/_emd_velox.py:FeiEMDReader._check_im_type", "rsciio/emd/_emd_velox.py:FeiEMDReader.read_file"]}
{"id": "C123", "title": "Images of Velox files", "statement": "Frame f, row y, column x of an image is element (y, x, f) of the file, one frame or all; axes have the order and sizes of the array; lengths keep their values under the change of unit; the title is the label of a map or the name of the detector; lazy and eager reading give the same elements.", "quantifier": "for all images of any size and number of frames, all metadata", "why_tests_cant": "Sizes and metadata are unbounded; tests compare a few files.", "anchors": ["rsciio/emd/_emd_velox.py:FeiEMDReader._read_image", "rsciio/emd/_emd_velox.py:FeiEMDReader._get_detector_name", "rsciio/emd/_emd_velox.py:FeiEMDReader._convert_scale_units"]}
{"id": "C124", "title": "Single spectra of Velox files", "statement": "Spectrum j of a stack is column j of the file; the axis of energies has the dispersion and offset, in keV, of the first detector whose name contains that of the result, and 1 and 0 without one.", "quantifier": "for all spectra, all lists of detectors", "why_tests_cant": "Lists of detectors and sizes are unbounded; tests read a few files.", "anchors": ["rsciio/emd/_emd_velox.py:FeiEMDReader._read_spectrum", "rsciio/emd/_emd_velox.py:FeiEMDReader._get_dispersion_offset"]}
{"id": "C125", "title": "Spectrum images from event streams of Velox files", "statement": "Each count is the number of events of its pixel, channel and frame, or of all frames read, in one stream or summed over all streams, modulo the width of the numbers, lazily or not; axes fit the array; the frames read end where asked, else where the file says, else where the markers say; a later end than that of the file is refused.", "quantifier": "for all streams of words, any number of detectors, shapes, ranges of frames, rebinning and widths", "why_tests_cant": "Streams, summing over detectors and frames, and two decoders combine; tests compare fixed files.", "anchors": ["rsciio/emd/_emd_velox.py:FeiEMDReader._read_spectrum_stream", "rsciio/emd/_emd_velox.py:FeiSpectrumStream", "rsciio/emd/_emd_velox.py:FeiEMDReader._parse_frame_time"]}
{"id": "C126", "title": "Dates of Velox files", "statement": "The date and time are those of the start of the acquisition in local time, to the microsecond, else of the time stamp of the camera; without either there are none.", "quantifier": "for all moments of the years 1 to 9999, all time zones", "why_tests_cant": "Tests run in one time zone with a few dates.", "anchors": ["rsciio/emd/_emd_velox.py:FeiEMDReader._convert_datetime", "rsciio/emd/_emd_velox.py:FeiEMDReader._get_metadata_dict"]}
{"id": "C127", "title": "Spectrum images of EELS in Velox files", "statement": "Element (k, i, j) of a cube is element (i, j, k) of the file, a line is kept; energies come from the acquisition; one signal for each, in order; the axes fit the array only when the first two sizes agree.", "quantifier": "for all cubes and lines, all calibrations", "why_tests_cant": "Tests have no cube with different sizes.", "anchors": ["rsciio/emd/_emd_velox.py:FeiEMDReader._read_eels_spectrum_images"]}
{"id": "C128", "title": "Metadata of Velox files", "statement": "NULs after a text are ignored; the groups of a file replace entries of the same name; a group keeps its entries up to the first without text; the rows of mapped metadata depend on version and detectors, have distinct sources and targets; the elements 1 to 119 have distinct names.", "quantifier": "for all metadata texts, groups, versions, and all atomic numbers", "why_tests_cant": "Texts and groups are unbounded; tests read fixed files.", "anchors": ["rsciio/utils/hdf5.py:_parse_metadata", "rsciio/emd/_emd_velox.py:FeiEMDReader._parse_metadata_group", "rsciio/emd/_emd_velox.py:FeiEMDReader._get_mapping", "rsciio/emd/_emd_velox.py:FeiEMDReader._convert_element_list"]}
{"id": "C129", "title": "TIFF: calibration written and read again", "statement": "The scales of an image come back within 1e-8 and exactly if they are multiples of it, offsets exactly, units as they were (micrometres for all if the second axis has them); a stack also keeps the scale, offset and unit of its navigation axis; quantity and variance are stored.", "quantifier": "for all images and stacks, scales, offsets and one-line units", "why_tests_cant": "Numbers and units are unbounded; tests round-trip a few calibrations.", "anchors": ["rsciio/tiff/_api.py:_get_tags_dict", "rsciio/tiff/_api.py:_get_imagej_kwargs", "rsciio/tiff/_api.py:_add_axes_imagej", "rsciio/tiff/_api.py:_add_axes_digital_micrograph"]}
{"id": "C130", "title": "TIFF: limits of writing", "statement": "Writing needs two axes and units in Latin-1, and succeeds with them; it does not keep tiny scales, units mixed with micrometres, or the second navigation axis.", "quantifier": "for all signals", "why_tests_cant": "Tests write signals whose calibration survives.", "anchors": ["rsciio/tiff/_api.py:_get_tags_dict", "rsciio/tiff/_api.py:_get_dm_kwargs_extratag", "rsciio/tiff/_api.py:_imagej_description"]}
{"id": "C131", "title": "TIFF: axes and calibration by maker", "statement": "There is one axis for each dimension, in order, and exactly the last two are signal axes; scales follow from the resolution in inches or centimetres, from the pixel size stored by Zeiss for 1024 columns, by TVIPS, by Olympus to fifteen digits, by FEI, and from magnification or camera length and wavelength by JEOL.", "quantifier": "for all shapes, labels, resolutions and stored sizes", "why_tests_cant": "Resolutions and metadata are unbounded; tests have square pixels.", "anchors": ["rsciio/tiff/_api.py:_parse_scale_unit", "rsciio/tiff/_api.py:_order_axes_by_name", "rsciio/tiff/_api.py:_build_axes_dictionaries", "rsciio/tiff/_api.py:_axes_fei", "rsciio/tiff/_api.py:_axes_jeol_sightx"]}
{"id": "C132", "title": "TIFF: a bad calibration does not stop reading", "statement": "A grey image with known labels is read whatever its calibration, with plain axes if that cannot be understood; colours stored first, forced resolutions of JEOL files and dates with slashes beside a description show the limits.", "quantifier": "for all pages, files and failures of the calibration", "why_tests_cant": "Failures are unbounded; tests read good files.", "anchors": ["rsciio/tiff/_api.py:_read_tiff", "rsciio/tiff/_api.py:_parse_scale_unit"]}
{"id": "C133", "title": "TIFF: streak images of Hamamatsu", "statement": "Every section and entry of the description is found; axes are the numbers stored where it says, or pixel numbers, and evenly spaced ones come out with their spacing and beginning; a blank line stops reading.", "quantifier": "for all sections and entries, addresses and lengths of axes", "why_tests_cant": "Descriptions are unbounded; tests read a few files.", "anchors": ["rsciio/tiff/_api.py:_get_hamamatsu_streak_description", "rsciio/tiff/_api.py:_axes_hamamatsu_streak", "rsciio/tiff/_api.py:_is_streak_hamamatsu"]}
{"id": "C134", "title": "TIFF: conversion of metadata", "statement": "Seconds become hours, minutes and seconds; numbers of FEI are scaled and anything else is dropped; values of Zeiss change units only within a dimension; positions of stages become millimetres; the table follows the maker and the mode.", "quantifier": "for all values", "why_tests_cant": "Values are unbounded; tests have one file for each maker.", "anchors": ["rsciio/tiff/_api.py:get_metadata_mapping", "rsciio/tiff/_api.py:_parse_beam_energy_FEI", "rsciio/tiff/_api.py:_parse_tuple_Zeiss_with_units", "rsciio/tiff/_api.py:_parse_tvips_time"]}
{"id": "C135", "title": "Bruker: pictures of a map file", "statement": "Each plane that is not black comes out once, in order, with the numbers stored in it, its description and the distance of rows and columns of the microscope; a plane of another size stops reading; the overview of version 2 follows.", "quantifier": "for all headers, sizes and stored bytes", "why_tests_cant": "Numbers and sizes of planes are unbounded; tests have a few files.", "anchors": ["rsciio/bruker/_api.py:HyperHeader._parse_image", "rsciio/bruker/_api.py:bcf_images", "rsciio/bruker/_api.py:bcf_reader"]}
{"id": "C136", "title": "Bruker: which maps are read", "statement": "The maps of a file are those named SpectrumData and a digit; the lowest by default, one, or all are given, each with its own sum spectrum; anything else is refused.", "quantifier": "for all names of files and all choices", "why_tests_cant": "Tests have files of one or two maps.", "anchors": ["rsciio/bruker/_api.py:HyperHeader", "rsciio/bruker/_api.py:BCF_reader.check_index_valid", "rsciio/bruker/_api.py:bcf_hyperspectra", "rsciio/bruker/_api.py:file_reader"]}
{"id": "C137", "title": "Bruker: shape of a map", "statement": "Height and width are those of the picture in whole groups of pixels, the channels those of the chosen energy limit, and each axis has its spacing times the group.", "quantifier": "for all sizes, group sizes, limits and spectra", "why_tests_cant": "Combinations of limits and group sizes are unbounded; tests use a few.", "anchors": ["rsciio/bruker/_api.py:bcf_hyperspectra", "rsciio/bruker/_api.py:BCF_reader.parse_hypermap", "rsciio/bruker/_api.py:HyperHeader.get_consistent_min_channels", "rsciio/bruker/_api.py:EDXSpectrum.energy_to_channel", "rsciio/bruker/_api.py:EDXSpectrum.last_non_zero_channel"]}
{"id": "C138", "title": "Bruker: metadata of maps", "statement": "Calibration, detector, hardware, microscope, dates and counters are those of their places in the header; times are converted; elements and lines are sorted, the last region of an element counts.", "quantifier": "for all headers", "why_tests_cant": "Headers are unbounded; tests have a few files.", "anchors": ["rsciio/bruker/_api.py:EDXSpectrum", "rsciio/bruker/_api.py:HyperHeader", "rsciio/bruker/_api.py:gen_detector_node", "rsciio/bruker/_api.py:gen_iso_date_time"]}
{"id": "C139", "title": "Bruker: single spectra", "statement": "A file of one spectrum comes out with all its counts, its calibration, detector, date, name and selected elements.", "quantifier": "for all files", "why_tests_cant": "Tests have two files.", "anchors": ["rsciio/bruker/_api.py:spx_reader"]}
{"id": "C140", "title": "Digital Micrograph: kind, names and axes of images", "statement": "The kind of an image is EELS, EDS_TEM, CL or none according to its tags; each dimension has the size, scale, units and origin of the file, with the offset minus origin times scale; names follow from units and position, the energy axis being named by the kind; images of more than two dimensions are converted to spectra iff they are spectrum images; the title is the name of the image, empty without one.", "quantifier": "for all trees of tags", "why_tests_cant": "Trees of tags are unbounded; tests have a few files.", "anchors": ["rsciio/digitalmicrograph/_api.py:ImageObject.signal_type", "rsciio/digitalmicrograph/_api.py:ImageObject.names", "rsciio/digitalmicrograph/_api.py:ImageObject.get_axes_dict", "rsciio/digitalmicrograph/_api.py:ImageObject.to_spectrum", "rsciio/digitalmicrograph/_api.py:ImageObject.title"]}
{"id": "C141", "title": "Digital Micrograph: functions applied to tags", "statement": "Modes of acquisition, quantities with units, names of microscopes, exposure times, texts and detectors follow from tags as documented.", "quantifier": "for all values of tags", "why_tests_cant": "Values of tags are unbounded; tests use those of a few files.", "anchors": ["rsciio/digitalmicrograph/_api.py:ImageObject._get_mode", "rsciio/digitalmicrograph/_api.py:ImageObject._get_quantity", "rsciio/digitalmicrograph/_api.py:ImageObject._get_microscope_name", "rsciio/digitalmicrograph/_api.py:ImageObject._get_exposure_time"]}
{"id": "C142", "title": "Digital Micrograph: mapping of metadata and whole files", "statement": "Each tag is mapped at most once; mapped tags lie below the tags of the image or of its source, or are its calibration of brightness; general tags are always mapped, those of a kind of image, of the magnification and of dates only for that kind; a whole file gives one signal for each image with its data, axes, mapping and title.", "quantifier": "for all trees of tags and files", "why_tests_cant": "Combinations of kind, microscope and source are many; tests have a few.", "anchors": ["rsciio/digitalmicrograph/_api.py:ImageObject.get_mapping", "rsciio/digitalmicrograph/_api.py:file_reader"]}
