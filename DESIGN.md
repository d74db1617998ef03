# Design

Machine-checked model, in Coq 8.16.1, of parts of RosettaSciIO (`/repo/rsciio`, a
Python library reading and writing microscopy file formats), and theorems stating the
properties of `properties.jsonl` about that model. The code was read as text only; it was
neither run nor changed.

## Layout

All Coq files are in `rocq/theories`, one level, with the flags of `rocq/_CoqProject`.

- Shared helpers: `Base` (results with exceptions, integer ranges, sums and counts, the
  set-up of `lia`), `Bytes` (little and big endian numbers, slices, records), `Text`
  (strings as lists of code points, split, strip, decimal numbers), `Utf8`, `RowMajor`
  (index arithmetic), `Dict`.
- `<Area>Model.v`: definitions only. Each definition cites the file and lines in `/repo`
  it mirrors; simplifications are listed at the head of the file or at the definition.
- `<Area>Spec.v`, or the first section of `<Area>Props.v`: the specification, written
  without the model's helpers.
- `<Area>Props.v` (and `MsaWrite`, `TvipsScan`, `SfsTree`, `SfsEntry`, `BcfUnpack`,
  `BcfMap`, ...): lemmas, the property theorems named `Cnn_...`, examples that meet the
  hypotheses, and `Print Assumptions` after each property theorem.
- `seeded/LOG.jsonl`: one line per mutation test. A definition of the model was changed in
  a scratch copy; the line lists the theorems whose proofs failed, those that rest on
  them, and theorems that were added or strengthened because nothing failed.

Conventions: Python exceptions are values (`Err e`). Loops that may not terminate carry
fuel with the error `OutOfFuel`; theorems show that the fuel suffices. Integers are
unbounded `Z`; the overflow of numpy and C types is written as `mod 2^k`. Bytes are `Z`
from 0 to 255, texts are lists of code points. Python's negative indices, slices, integer
division and `//` are modelled as in Python. Floating point numbers are bit patterns,
opaque values or exact fractions, as said at the definitions.

A property that is false of the faithful model has a theorem ending in `_refuted` with a
witness, beside the theorem under the guard that makes it true. A theorem that covers only
part of a property ends in `_partial`.

## Properties

| id | property | status | files | note |
|----|----------|--------|-------|------|
| C01 | Dense decoding of an EDS event stream counts events | proved | FeiProps | Counts are kept modulo 2^width of the dtype; C01_overflow_refuted shows that the guard on overflow is needed. |
| C02 | Lazy and eager stream decoding agree | proved | FeiProps | For first_frame < last_frame. For first_frame = last_frame the decoders differ (refuted with a witness). |
| C03 | Cube to event stream to cube round trip | proved | FeiProps |  |
| C04 | Summing frames at load equals summing afterwards | proved | FeiProps |  |
| C05 | Energy rebinning equals binning afterwards | proved | FeiProps | For rebin factors dividing the channel count; otherwise decoding fails on the tail channels (refuted with a witness). |
| C06 | Chunk slices partition the array | proved | DistProps |  |
| C07 | Frames with arbitrary scan positions land where the positions say | proved | DistProps | Proved for chunks without an axis of length one; for other chunks the code breaks the property (two refutations). |
| C08 | Incremental file names are fresh | proved | PathProps | Termination holds as long as the interpreter's recursion limit exceeds the number of files; a refutation shows the limit matters. |
| C09 | A file is only overwritten after a yes | proved | PathProps |  |
| C10 | Serial date conversion round trip | proved | DateProps | Exact IEEE double arithmetic. Proved for 1899-12-30 to 2079-06-04; refuted outside. |
| C11 | RGB packing round trip | proved | ArrayProps |  |
| C12 | Ragged arrays survive flattening | proved | ArrayProps | Numeric cells of one element type; refuted for cells of different types. |
| C13 | Signal chunks fit the signal | proved | ArrayProps | The floating point root is a parameter assumed not to exceed the true root; an exact root meets the assumption. |
| C14 | Metadata dictionaries survive hspy/zspy storage | proved | HierProps | For nested dictionaries of storable values with ordinary keys, of any size and depth; each excluded kind of value is shown to change by a refutation. Signals, dask arrays and ragged arrays inside metadata are not modelled. |
| C15 | Order of long heterogeneous lists | proved | HierProps | Order is kept up to ten elements; every list of eleven or more elements comes back in a wrong order (proved for all such lists). |
| C16 | Blockfile data round trip | proved | BloProps | Two navigation axes, 8-bit data without intensity scaling, little endian, note in ASCII. Reading both eagerly and lazily. Refuted: axes of line scans, big endian files. |
| C17 | Blockfile data offset | proved | BloProps |  |
| C18 | Truncated blockfiles are padded with zero frames | proved | BloProps | For truncation at any byte after the header. |
| C19 | Ripple header round trip | proved | RplProps | The INCA variant of the header (first line with a parenthesis) is not modelled. Refuted outside the guard: values with semicolons, tabs, newlines or characters outside latin-1. |
| C20 | Ripple raw data round trip | proved | RplProps | For at most three axes, one or two of them signal axes. Refuted outside: depth one, one-column images, no or three signal axes. |
| C21 | EMSA/MSA text fields round trip | proved | MsaWrite, MsaProps | Stronger than asked: every mapped keyword, with the table of keywords in either of its states. Refuted outside the guard. |
| C22 | Reading MSA files does not depend on earlier writes | proved | MsaProps | True for histories without SEM signals, for the spectrum always; refuted for histories with one SEM signal, both for reading and for writing. |
| C23 | MSA spectrum values are read back in order | proved | MsaProps | For Y and XY format with the default separator and any conversion of text to numbers. |
| C24 | Names of virtual images are unique | proved | MrcProps | Uniqueness for all lists. First occurrences are kept only without underscores; names belong to images only if the directory is listed in order; images are lost only if a virtual and an external image share a name. Each of these guards is needed (refuted). |
| C25 | SEMPER label round trip | proved | SemperProps | Scales and offsets as float32 bit patterns. Outside the guard (non-ASCII or missing title, units longer than four characters, more than 32767 columns, complex data with a long range text) writing or reading fails (refuted). |
| C26 | SEMPER picture data round trip | proved | SemperProps | Elements are compared bit for bit. Files with the padding byte are read correctly, but the writer never writes it (refuted). |
| C27 | TVIPS file splitting keeps every frame | proved | TvipsProps | A signal without navigation axis cannot be written (refuted). |
| C28 | TVIPS scan reordering is a permutation | proved | TvipsScan | Gives the frame at every grid position besides the permutation. A scan shape with one entry cannot be wound (refuted). |
| C29 | Reading a TVIPS series returns what was last written | proved | TvipsProps | Reading back holds when no file with the next number is left from an earlier series; otherwise refuted. Also refuted for one frame and for version 1. |
| C30 | 12-bit pulses decode the same in both Bruker back ends | proved | BcfUnpack | Both decoders also give back the encoded pulses. |
| C31 | Instruction-packed spectra decode the same in both Bruker back ends | proved | BcfUnpack | As stated, with the encoded counts given back; refuted for the compiled back end with an 8-byte group. |
| C32 | Reading a piece of an SFS file returns that slice | proved | SfsProps | An empty read at the very end of a file that fills its chunks raises IndexError (refuted). |
| C33 | Iterating over SFS chunks returns the whole file | proved | SfsProps | Also the blocks of compressed files, with zlib as an argument. An empty file raises IndexError (refuted). |
| C34 | The SFS file table is read completely | proved | SfsProps, SfsEntry | Holds when the code's chunk count suffices; refuted otherwise, for every container, and for 15 entries in chunks of 4096 bytes. |
| C35 | DM tag tree parsing recovers the tree | proved | DmProps | For both versions and byte orders, with image data left in the file at the right offset; unnamed tags included. The refutations show what lies outside the guards. |
| C36 | Old packed complex images unpack to a Hermitian image | proved | DmPacked | The exact place of every packed number is part of the theorem. The new packed format is mirrored row by row only. |
| C37 | MIB loading stays inside the file | proved | MibProps | Which frames, in which shape, for every case; they always lie inside the file. last_frame is not respected for interrupted scans (refuted) and an empty range fails (refuted). |
| C38 | Loading a MIB buffer equals loading the file | proved | MibProps | Equal when the first frame is frame 0; refuted for other first frames and for quad headers. |
| C39 | All MIB headers can be parsed | proved | MibProps | Refuted for max_index=-1: the last frame is always missing. |
| C40 | Unpickling resolves only white-listed names | proved | PrzProps | For a machine with the operations of pickle that look up names, make objects and call them; unlisted names abort before any effect, and only arrays of objects are unpickled. |
| C41 | Decimal commas in XML numbers are replaced, nothing else | proved | XmlProps | The refutation shows numbers the pattern misses and lists it takes for numbers. |
| C42 | XML conversion keeps leaf text | proved | XmlProps, XmlDict | From the parsed tree; for both converters. The refutations show what is lost. |
| C43 | EMPAD axes match the data | proved | EmpadProps | Axes match for sizes of at least one; refuted for size zero. The parsed XML tree is the input. |
| C44 | Saving metadata again over an existing group | proved | HierUpdate, HierProps | Exact effect for nested dictionaries whose shared keys keep their form; lists saved element by element are left out. The refutations show what happens to removed keys and changed forms. |
| C45 | Saving an MSA file leaves the signal as it was | proved | MsaProps | True for signals that do not come from an MSA file; refuted for those that do. |
| C46 | Precision of MSA spectra | proved | MsaProps | %g is modelled for non-negative integers only. |
| C47 | SEMPER axes, title and date round trip | proved | SemperProps | Without axes of length one and with the unit of the first axis; both guards are needed (refuted). |
| C48 | MRC volumes and axes | proved | MrcProps | Little endian files; refuted for big endian files and for axis names after removing length-one axes. |
| C49 | TVIPS axes fit the data | proved | TvipsScan | For scan shapes with two or more entries; refuted for one entry. |
| C50 | Automatic TVIPS scan grids | proved | TvipsScan | Indices that never decrease and start at one or more; the end is misplaced if they return to zero (refuted). |
| C51 | SFS pointer tables are read completely | proved | SfsProps |  |
| C52 | The SFS directory tree holds each entry at its path | proved | SfsTree | Refuted when a directory is listed after its content. |
| C53 | Whole Bruker maps hold the stored counts | proved | BcfMap | For maps within the guards stated in the file; each of the four differences is a refutation outside them. |
| C54 | The estimated depth of Bruker maps holds the counts | proved | BcfMap | Unsigned types hold twice the mean, signed types hold the mean but not twice the mean (refuted), and a map with one bright pixel is truncated (refuted). |
| C55 | DM images are read back pixel by pixel, thumbnails left out | proved | DmImage | From the bytes of the file to the pixels; refuted for big-endian files and for named images. |
| C56 | DM axes carry the calibration of their own dimension | proved | DmImage | Refuted with more calibrations than dimensions. |
| C57 | The first MIB header gives the geometry | proved | MibProps |  |
| C58 | The scan shape is found from the times of the frames | proved | MibProps | Times are integers and the mean is exact. |
| C59 | MIB images are the stored pixels with rows flipped | proved | MibImage | From the bytes of the file to the pixels. |
| C60 | Entries of hdr files are read back | proved | MibImage |  |
| C61 | The header of an npy file gives offset, shape and type | proved | NpyProps | From the bytes of the file; refuted for Fortran order. |
| C62 | A PantaRhei file is read the same lazily and not | proved | PrzProps | Refuted for compressed entries, which the reader's own writer makes. |
| C63 | Axes of PantaRhei files keep their data and calibration | proved | PrzAxes | Numbers, sizes, names, calibrations and order of axes, in any dimension. |
| C64 | Signals written to PantaRhei files are read back | proved | PrzAxes | The refutations show each case outside the guards. |
| C65 | Axes of npy files | proved | NpyProps |  |
| C66 | One frame of a JEOL pts stream becomes its map | proved | JeolProps |  |
| C67 | Frames of a JEOL pts stream are found and added up | proved | JeolCube | Images are proved for maps that are not wider than tall; the refutations show the rest. |
| C68 | A JEOL pts stream gives the same map lazily | proved | JeolLazy | The guards exclude what the refutations show. |
| C69 | The header and elements of a TIA ser file are read as stored | proved | TiaProps |  |
| C70 | Each number of a ser file is at its place in the data | proved | TiaData | Images scanned with x first must have no dimension of size one; the refutation shows why. |
| C71 | Axes of a ser file | proved | TiaData |  |
| C72 | XML objects of an emi file | proved | TiaEmi |  |
| C73 | Objects of a sur file | proved | SurFile, SurStreams | zlib is a pair of functions that undo each other. |
| C74 | Integer signals written to sur and pro files | proved | SurStreams, SurSignal | Scales and offsets of axes are single precision numbers. |
| C75 | Precision of floats in sur and pro files | proved | SurScale | Double arithmetic is exact; rounding to single precision in the header is modelled. Surfaces need a range between 2^-100 and 2^30. |
| C76 | Metadata of sur and pro files | proved | SurQuantity | Dates are parsed by dateutil, taken as the inverse of formatting. |
| C77 | Comments of sur and pro files | proved | SurMeta | Text of values and ast.literal_eval are functions; a value must be what literal_eval gives for its text. The file is proved for surfaces of integers. |
| C78 | Fields of EDAX spectrum headers are read from their places for every version of the format | proved | EdaxHeader, EdaxNames | Single precision numbers stay bit patterns. Headers of versions before 0.7 are shorter than what is read without load_all (C78_short_refuted). |
| C79 | EDAX spectrum images have the spectra and axes stored in their files | proved | EdaxMap, EdaxNames | Without lazy, data are read in the byte order of the machine (C79_big_refuted). |
| C80 | EDAX line scans have the spectra recorded and positions of their csv file | proved | EdaxLine, EdaxNames | Cells of the table are not quoted; float is a function. With a relative directory the .csv file is searched for in the wrong place (C80_csv_name_refuted). |
| C81 | The blocks and the header of Renishaw files are found wherever they are | proved | RenBlocks | A block of size 0 never ends (C81_zero: out of fuel for every fuel); a few zero bytes at the end give IndexError (C81_zeros_refuted). C81_cut needs the head of the cut block to be complete. |
| C82 | Sets of properties of Renishaw files become dictionaries of their names and values | proved | RenPset | Names and numbers differ within one set. Arrays of one element become a number (C82_one_refuted). |
| C83 | Spectra of Renishaw files get the shape and axes of their measurement | proved | RenData, RenWhole | Fit of a uniform axis and mean of spectra are functions. Unfinished lines, series of one spectrum (nan step) and series with two axes fail (refuted). |
| C84 | Dates and acquisition parameters of Renishaw files are those recorded | proved | RenMeta | C84_extra is for one level of inner sets. WXDM blocks in which nothing is unmatched fail with KeyError, and values left over are dropped (refuted). |
| C85 | Traces of Quadstar SAC files have the samples, axes and texts of the file | proved | QuadMore, QuadSac | Times are exact multiples of 0.1 ms and the full scale is the nearest single precision number. Characters behind a zero byte inside a text are kept (C85_zero_refuted). |
| C86 | Cycles of Quadstar SBC files are taken from the end of the file | proved | QuadMore, QuadSbc | Division of masses is exact. |
| C87 | Scans of Topspin files have the shape, steps and order of their points | proved | TopScan, TopMore, TopFile, TopDemo | Numbers are exact. A column of patterns gets its last two axes exchanged, lines from high to low y get a wrong step, and patterns stored in chunks cannot be read (refuted). |
| C88 | Datasets and metadata of Topspin files are all read | proved | TopTasks, TopFile, TopMore, TopDemo | C88_metadata is for elements nested once. The calibration of X is given to the axis y, an image cannot be chosen by its address, times lose AM and PM, and nested items are true, or overwritten (refuted). |
| C89 | Pixels and axes of Hamamatsu streak images are read exactly | proved | HamFile | The fit of a uniform axis is a function. A calibrated image of one column fails with IndexError (refuted). |
| C90 | The comment of Hamamatsu streak images is parsed back | proved | HamText | With a = inside a value the last value must be in quotes; a [ inside a value, an empty last value and an empty comment fail (refuted). |
| C91 | Metadata of Hamamatsu streak images come from the comment | proved | HamMeta | Arithmetic is exact. Exposure time without a number of exposures, and a missing acquisition mode, fail with TypeError; a blaze of 0 does not remove the grating (refuted). |
| C92 | Jobin Yvon files have one axis per dimension, and signal values follow the axis | proved | JyData, JyFile | A row of one value is repeated, several rows without axes give more dimensions than axes, a spectrum of one value fails, and so does a second list of columns with one value (refuted). Arithmetic is exact; the fit is a function. |
| C93 | Metadata of Jobin Yvon files are the entries of the file | proved | JyMeta | An entry without key replaces the values of the one before or is a NameError; a second text alone is a KeyError; without filter, hole, title, or with a date of other than two words, the file is not read (refuted). |
| C94 | Heater logs of DENS hold every row of the file at times that go on over midnight | proved | DensProps, DensText, DensFile | Arithmetic is exact; float() and the line fitted to the times are functions. A log of no or one row, a calibration without = and a file of empty lines only are not refused as bad files (refuted; the last never ends). |
| C95 | Logs of Protochips hold every column of the file with its own units, calibration and notes | proved | ProtoProps, LogTable, ProtoFile, ProtoDemo | Arithmetic is exact; float() and strptime are functions. Without a user in the header the first row is lost, without notes every row has the note False, and names that differ in blanks only share the data (refuted). |
| C96 | Logs of Impulse hold every column of the file, with positions of valves as one number | proved | ImpProps, ImpFile, ImpDemo | Arithmetic is exact; float() is a function. Other positions of valves collide, notes are cut at commas, an empty row and a log of one row are IndexErrors, and missing metadata a KeyError (refuted). |
| C97 | Arina files are one scan of all images of all datasets, binned and flatfielded exactly | proved | ArnProps | Arithmetic is exact. Images that are not square cannot be read, counts of 32 bits are cut to 16, and a group without datasets is a NameError (refuted). |
| C98 | Axes and calibration of netCDF files are those of the attributes of the data cube | proved | NcProps | With one or two dimensions the energy is a navigation axis, one missing calibration takes away all of its kind, and four dimensions are an IndexError (refuted). |
| C99 | TriVista files hold all frames in order of the scan, with axes of their calibration | proved |  | float() and the fit of a uniform axis are functions; arithmetic is exact. Axes of stacked spectra have the index -1, scans of glued spectra cannot be read as a stack, and one wavelength fails with a uniform axis (refuted). |
| C100 | Metadata of TriVista files name every group, and the devices that were used | proved | TvMeta | C100_names is for names that are not another name with digits. One device only of a kind, no enabled objective and no fitting grating fail; names with digits, and groups of groups of one name, are overwritten (refuted). |
| C101 | Pixels, colours and calibration of images | proved | ImgProps, ImgTight | Colours are lost when green and blue agree everywhere, since these are compared twice and red never; an image in colours of one row is read as numbers, a grey one not at all; the two axes have each other's index (refuted). |
| C102 | Writing images and reading them again | proved | ImgTight | Units as written by pint are a function. A red image is grey when read again, and aspects given as words are a TypeError (refuted). |
| C103 | Stacks in MRCZ files | proved | ImgProps, ImgTight | The library mrcz is left out. Offsets and the units of the first axes are lost, signals of fewer than three axes cannot be written (refuted). |
| C104 | Signals of USID datasets | proved | UsidProps | The slope of values is a function. With both kinds of brackets the units are wrong, and attributes of the measurement group are never read, since the group of the channel is looked at twice (refuted). |
| C105 | Writing USID files and reading them again | proved | UsidWrite | pyUSID is left out: the dataset in the file holds what was handed to it. Keys with hyphens, and a group named Original, hide other entries (refuted). |
| C106 | Numbers, texts and detector metadata of ELID files | proved | PhProps, PhTight | The value of a 64-bit float, radians and float() are functions. |
| C107 | Analyses of ELID files | proved | PhTight, PhImage | bz2 and tifffile are left out. An image without picture, or an analysis other than MSA and constructive ones in the lists at the end, make a file unreadable; MSA spectra without picture lose the acquisition settings of the image (refuted). |
| C108 | Pictures and units of ELID files | proved | PhImage | Numbers are exact. |
| C109 | Axes of Delmic files | proved | DmcProps | Numbers are exact. |
| C110 | Acquisitions of Delmic files | proved | DmcProps, DmcTight, DmcFile | h5py is left out. Angle-resolved images without a concurrent one make the file unreadable; an acquisition with a value without state is left out (refuted). |
| C111 | Dimensions of Delmic signals | proved | DmcOrder, DmcFile | Two dimensions of one name that have to be moved make the file unreadable (refuted). |
| C112 | Writing and reading EMD files of the Berkeley kind | proved | NcemDemo | The units library is a function; h5py is left out. Empty units become [], underscores are lost, units end at a closing bracket; titles keep what is after the last slash and lose _depth (refuted). |
| C113 | Signals of EMD files of the Berkeley kind | proved | NcemFile, NcemDemo | Signals whose group name occurs in the path of another are stacked with it or nothing is read; the second dataset of a group is lost; stacks numbered from zero fail; stacks of lines have the axis of the other dimension; a dimension with one value has no scale (refuted). |
| C114 | Simulations, versions and units in EMD files of the Berkeley kind | proved | NcemFile, NcemTight, NcemDemo | Numbers are exact. Depth sections without cell size are not read (refuted). |
| C115 | Peak counts reconstructed from Tofwerk events | proved | TofPeaks, TofProps, TofDemo, TofTight | Masses are exact and counts unbounded. With overlapping windows events in a window are lost or counted for another peak; a clock slower than twice the samples is a ZeroDivisionError with the compiled path only; counts below the divisor become 0 (refuted). |
| C116 | Peaks of Tofwerk files | proved | TofTight, TofDemo | h5py is left out. The table of peaks in the metadata is neither in the order of the axis nor limited to the range of masses (refuted). |
| C117 | Signals of Tofwerk files | proved | TofDemo, TofFile | Later masses that do not grow stay in the axis of the sum spectrum; the range of depths is applied to images after those of other shapes are left out, so images of other depths are read (refuted). |
| C118 | Axes of Nexus data | proved | NxProps, NxTight, NxDemo | Numbers are exact. Descending axes come back ascending without the data being reversed; steps far below 1e-8 count as even; uneven axes lose their values and units; a dot before an axis with a lower position gives two axes for one dimension (refuted). |
| C119 | Data found in Nexus files | proved | NxFind, NxTight, NxDemo | h5py is left out. Targets are looked for in the group around a dataset; the default is matched as part of a path (refuted). |
| C120 | Metadata in Nexus files | proved | NxMeta, NxTight, NxSearch, NxDemo | Names starting with keys, blanks at the end, lists of one element, None, empty lists, dictionaries with only a value or marked as NXdata, and lists of dictionaries change or are lost; a dot in a name splits it when searching (refuted). |
| C121 | Writing and reading Nexus files | proved | NxAxes, NxFile, NxTight, NxDemo | h5py is left out. Two axes of one name, an axis called data, a title auxiliary, three signal axes, axes of one value and negative scales do not come back; of General only the title does; read with everything, axes are signals too, described by another axis (refuted). |
| C122 | Signals read from Velox files | proved | VxProps, VxDemo | h5py, json and pint are left out. The documented selection image is refused; spectra beside images without a spectrum image are lost (refuted). |
| C123 | Images of Velox files | proved | VxImage, VxDemo | Numbers are exact. An image that names no detector takes the name of the image before it (refuted). |
| C124 | Single spectra of Velox files | proved | VxSpectrum, VxDemo | Rebinning stretches the axis of a spectrum that is not rebinned; a detector whose name contains the wanted one is taken for it (refuted). |
| C125 | Spectrum images from event streams of Velox files | proved | VxStream, VxDemo | Unsigned counts. The shape depends on the selection, the unit on the summing of frames, and the axes take the channels of the first stream for all (refuted). |
| C126 | Dates of Velox files | proved | VxMeta | The time zone is a function. West of Greenwich the time ends with the zone (refuted). |
| C127 | Spectrum images of EELS in Velox files | proved | VxMeta, VxDemo | Cubes with different first sizes get axes that do not fit; the file name has its directory, unlike elsewhere (refuted). |
| C128 | Metadata of Velox files | proved | VxMeta | json is a function. |
| C129 | TIFF: calibration written and read again | proved | TifCal | tifffile is left out: tags and the two resolutions are taken to come back as written. Numbers are exact. |
| C130 | TIFF: limits of writing | proved | TifCal | Scales below 1e-8 come back as zero; the unit of y is lost if that of x is micrometres; with two navigation axes the second decides about the units and loses its scale (refuted). |
| C131 | TIFF: axes and calibration by maker | proved | TifRead | FEI, TVIPS and Olympus: the width of pixels is given to the height of the image, so only square pixels are right (refuted for the others). |
| C132 | TIFF: a bad calibration does not stop reading | proved | TifRead | Forcing the resolution makes reading of JEOL files fail (refuted). |
| C133 | TIFF: streak images of Hamamatsu | proved | TifStreak | Commas inside of quotes are not kept (refuted). The fit is least squares in exact numbers; that of degree three is a function. |
| C134 | TIFF: conversion of metadata | proved | TifStreak | Reading of dates and pint are functions. |
| C135 | Bruker: pictures of a map file | proved | BrkPic, BrkDemo | Pictures that are all black are left out, and an empty description becomes the title None (refuted). Base64 and zlib are a function. |
| C136 | Bruker: which maps are read | proved | BrkMap, BrkDemo | Only the last digit of a name counts: with ten or more maps one is given in place of another (refuted). |
| C137 | Bruker: shape of a map | proved | BrkMap, BrkDemo | The width has the spacing of rows: right for square pixels only (refuted for others). The parser of pixels is the one modelled in BcfModel, here a function. |
| C138 | Bruker: metadata of maps | proved | BrkMeta, BrkDemo | A header without a date is an error (refuted). Dates and literals are functions. |
| C139 | Bruker: single spectra | proved | BrkMeta, BrkDemo | One selected element is given as a text, not a list; no date is an error (refuted). |
| C140 | Digital Micrograph: kind, names and axes of images | proved | DmAxes, DmFile | The energy axis of X-ray spectra never gets its name, because EDS_TEM is compared with EDS and EDX (refuted). |
| C141 | Digital Micrograph: functions applied to tags | proved | DmTable, DmFile | Dates are parsed by a function (dateutil). |
| C142 | Digital Micrograph: mapping of metadata and whole files | proved | DmTable, DmFile | The kind of microscope of stacks is looked up outside of the source tags, and detectors of a SEM come below TEM (refuted). Applying the mapping is left to hyperspy. |

## What is modelled, and what is not

- **FEI/Velox event streams** (`utils/_fei_stream_readers.py`; `FeiModel`): all decoders,
  dense and sparse, and `array_to_stream`. Not: numba, sparse array classes (index and
  value lists are kept), memory order.
- **Distributed loading** (`utils/_distributed.py`; `DistModel`): chunk slices, memory
  map slices. Not: dask scheduling; a file is an array given by its elements.
- **Paths** (`utils/path.py`; `PathModel`): new names, overwriting questions. Not: pathlib
  normalisation, races with other processes.
- **Dates** (serial dates in `utils/_date_time.py`; `DateModel`): conversion in exact IEEE
  double arithmetic. Not: time zones.
- **Arrays** (`utils/rgb.py`, `_hierarchical.py` ragged arrays and chunk sizes; `ArrayModel`).
- **hspy/zspy metadata** (`_hierarchical.py`; `HierModel`): `dict2group`, `_group2dict`,
  `parse_structure`, saving twice. Not: names containing slashes, signals in lists, files
  of old versions, datasets' compression.
- **Blockfile** (`blockfile/_api.py`; `BloModel`): header, writer, reader, truncated files.
  Not: the conversion of units and intensity scaling.
- **Ripple** (`ripple/_api.py`; `RplModel`): rpl text, raw data, axes. Not: the INCA variant
  of the rpl header, the metadata of detectors.
- **MSA** (`msa/_api.py`; `MsaModel`): parsing, writing, the global table of keywords. Not:
  the conversion of decimal text to doubles (a function given), `%g` for fractions.
- **MRC** (`mrc/_api.py`; `MrcModel`): header, volume, axes, names of DE images. Not: DE
  metadata files, matching of file names with regular expressions, mrcz.
- **SEMPER** (`semper/_api.py`; `SemperModel`): label, picture, axes, date, both
  directions. Not: rounding of doubles to float32, the text of the data range.
- **TVIPS** (`tvips/_api.py`; `TvipsModel`): writing with splitting, reading back, scan
  grids, automatic recognition. Not: lazy loading, the metadata dictionary.
- **Bruker SFS container** (`bruker/_api.py` lines 68-449; `SfsModel`): pieces, chunks,
  pointer tables, compressed blocks, file table, directory tree, opening. Not: zlib (a
  function given), time stamps.
- **Bruker spectral maps** (`bruker/_api.py` lines 773-834 and 1074-1258,
  `bruker/unbcf_fast.pyx`; `BcfModel`): both parsers, chunk by chunk, all three packings,
  downsampling, cell widths. Not: numpy 2's OverflowError, undefined behaviour of the
  compiled parser (an error here).
- **Digital Micrograph** (`digitalmicrograph/_api.py` lines 58-1340; `DmModel`,
  `DmImageModel`, `DmMetaModel`): the tag parser for DM3 and DM4, the list of images, their data and
  axes, names, kinds, packed complex images, the mapping of metadata and its functions, whole files.
  Not: characters Box replaces in keys, dateutil, applying the mapping (hyperspy), lazy loading.
- **Quantum Detectors MIB** (`quantumdetector/_api.py` lines 112-344, 357-473, 530-614;
  `MibModel`): headers, choice and loading of frames from files and buffers, guess of the
  scan shape, flipped images, hdr files. Not: lazy loading, metadata mapping, RAW data.
- **npy files** (`utils/_tools.py` lines 134-190, `numpy/_api.py` lines 76-158; `NpyModel`):
  header, lazy reading, axes. Not: arrays of objects or structured types, big endian types.
- **PantaRhei** (`pantarhei/_api.py`, `pantarhei/_restricted_unpickling.py`; `PrzModel`,
  `PrzAxesModel`): restricted unpickling, lazy and eager reading of the zip entry, axes in
  both directions. Not: the other metadata, units with prefixes, binning factors.
- **XML conversion** (`utils/xml.py`; `XmlModel`): decimal commas, both converters to
  dictionaries, with all options. The parsed tree is the input.
- **EMPAD** (`empad/_api.py` lines 32-100, 147-270; `EmpadModel`): shape from XML or file
  name, frames, axes. Not: calibration.
- **JEOL pts** (`jeol/_api.py` lines 340-391, 425-553, 725-1219; `JeolModel`): both readers of
  a frame, the loop over frames with known and unknown starts, shifts, the options. Not:
  energies, metadata, the other file types.
- **TIA** (`tia/_api.py` lines 67-201, 251-284, 319-375, 505-655, 696-737; `TiaModel`,
  `TiaEmi`): ser files from bytes to data and axes, search for XML objects in emi files.
  Not: metadata, guess of units, axes from positions (never reached).
- **Digital Surf** (`digitalsurf/_api.py` lines 62-125, 191-1231, 1246-1729, 1860-2343;
  `SurFloat`, `SurModel`, `SurMetaModel`): header fields, single precision numbers, objects,
  compression in streams, writing and reading of all kinds of signals, comments, quantity,
  dates. Not: mapping of cathodoluminescence metadata, hyperspy's post processing.
- **EDAX** (`edax/_api.py` lines 50-1137; `EdaxModel`): layouts of headers, spectra, maps and
  line scans, names of files that belong together, tables of positions. Not: single precision
  numbers (bit patterns), quoted cells of tables.
- **Renishaw** (`renishaw/_api.py` lines 94-134, 418-1262; `RenModel`): blocks, header, sets of
  properties, axes, data, dates, acquisition parameters. Not: the white light image, floating
  point arithmetic of means and fits.
- **Quadstar** (`quadstar/_api.py`; `QuadModel`): headers, dates, SAC traces, SBC cycles, axes.
  Not: the dictionaries of original metadata, rounding of double precision numbers.
- **Topspin** (`topspin/_api.py`; `TopModel`): sessions and datasets, axes of scans and images,
  data by offsets, metadata. Not: rounding of numbers, progress bar, time stamps.
- **Hamamatsu** (`hamamatsu/_api.py`; `HamModel`): header, pixels, comment, axes, metadata.
  Not: infinities and nan in texts, the line fitted to a uniform axis.
- **Jobin Yvon** (`jobinyvon/_api.py`; `JyModel`): places, entries, axes, rows, metadata, from a
  parsed xml tree. Not: infinities and nan, the line fitted to a uniform axis, the signal type.
- **DENS, Protochips, Impulse** (`dens/_api.py`, `protochips/_api.py`, `impulse/_api.py`; `LogModel`):
  headers, dates, columns read by `genfromtxt`, times, units, notes, metadata files. Not: infinities
  and nan, quoted csv fields, the line fitted to the times, names that become empty.
- **Arina** (`arina/_api.py`; `ArnModel`): scan, images, binning, flatfield, types. Not: rounding of
  numbers, flatfields of another shape, the search for the pixel size in the other file.
- **netCDF** (`netcdf/_api.py`; `NcModel`): version, cube, attributes, axes. Not: the library that opens
  the file, masks and other variables.
- **TriVista** (`trivista/_api.py`; `TvModel`): groups of InfoSerialized, selection of hardware, wavelengths,
  frames, axes, stacks, metadata, from a parsed xml tree. Not: infinities and nan, the line fitted to a
  uniform axis, the order of renamed groups (a set in Python), further entries of devices.
- **Images and MRCZ** (`image/_api.py`, `utils/_image.py`, `mrcz/_api.py`; `ImgModel`): squeezing, grey and
  colour, exif axes, written arrays, sizes of figures, scale bars; mrcz axes, header and writing. Not: lazy
  images, the libraries that read and write the files, drawing.
- **USID** (`usid/_api.py`; `UsidModel`): dimensions and axes, descriptors, fields, attributes, flattened
  metadata, dimensions for writing. Not: pyUSID and sidpy, non-text names, lazy arrays.
- **Phenom ELID** (`phenom/_api.py`; `PhModel`): the whole reader behind bz2: numbers, texts, elements,
  pictures with their XML metadata, all seven kinds of analyses, signals with axes and metadata, versions
  up to 4. Not: bz2 and tifffile, infinities, the time zone, the mapping of metadata.
- **Delmic** (`delmic/_api.py`; `DmcModel`): the whole reader behind h5py: units, axes, metadata, kinds,
  merging of angle-resolved images, selection, squeezing and reordering. Not: h5py, json and utf-8, dates
  (a function), logging, polarizations that are numbers.
- **EMD, Berkeley** (`emd/_emd_ncem.py`, version test of `emd/_api.py`; `NcemModel`): finding datasets,
  stacking, transposing, axes, units, depth sections, metadata, and the writer. Not: h5py, chunks and lazy
  reading, text arrays, pint (a function), non-uniform axes.
- **Tofwerk** (`tofwerk/_api.py`, `tofwerk/_reconstruction.py`; `TofModel`): selection and availability,
  sum spectra, peak data stored or counted from events by both paths, event lists, images, axes. Not: h5py,
  lazy reading, chunks, most metadata and dates, floating point of masses.
- **Nexus** (`nexus/_api.py`; `NxModel`): the whole reader and writer behind h5py: axes, NXdata and plain
  datasets, links, selection by keys and paths, defaults, metadata and its search, collections, signals. Not: h5py,
  lazy reading, chunks, dtypes, learning results, `list_datasets_in_file`, `read_metadata_from_file`, slashes in keys.
- **EMD, Velox** (`emd/_emd_velox.py`, parts of `utils/hdf5.py`; `VxModel`): the whole reader behind h5py: selection,
  images, single spectra, event streams, cubes of EELS, detectors, dates, groups of metadata, rows of mapped metadata.
  Not: h5py, json, pint and time zones (functions), the conversions of the mapped values, logging.
- **TIFF** (`tiff/_api.py`; `TifModel`): behind tifffile: labels, axes and calibration of all makers, Hamamatsu streak
  files, dates, conversions of metadata, tags and description of the writer. Not: tifffile itself, lazy reading and
  memory maps, XML, dates and pint (functions), series against pages, floating point.
- **Bruker headers** (`bruker/_api.py` lines 452-772, 837-1073, 1261-1612; `BrkModel`): from a parsed xml tree: spectra, microscope,
  pictures and overview, regions and elements, counters, choice and shape of maps, metadata, spx files. Not: the XML parser,
  base64, dates and literals (functions), logging, lazy reading.

Not modelled at all: the plugins not named above, GUI and progress bar code, lazy loading
through dask (except where named), HDF5 and zarr themselves (a store is a tree of groups,
attributes and datasets), zlib, XML parsing (trees are inputs), and the file system apart
from what a directory listing and file contents need.

## Findings

Behaviour of the code that contradicts its description or loses data. Each is a theorem
(in brackets) unless marked "not modelled".

- Sparse and dense FEI decoders differ for `first_frame = last_frame` (C02).
- Rebinning that does not divide the channel count fails on the tail channels (C05).
- Slices of memory maps are wrong for chunks with an axis of length one (C07).
- Serial dates before 1899-12-30 and after 2079-06-04 do not round trip (C10).
- Ragged arrays with cells of different types change type (C12).
- Many values of metadata change when saved in hspy/zspy files, and lists of eleven or more
  stored elements come back in a wrong order (C14, C15). Saving over an existing group
  leaves removed keys and stale values (C44).
- Blockfile line scans get wrong axes; the data offset is not a multiple of the promised
  alignment (C16, C17).
- Ripple values with separators or line breaks break the file; several signal shapes are
  read back with a different shape (C19, C20).
- MSA: colons, spaces and line breaks in texts are lost; reading or writing one SEM
  spectrum changes how later files are read (C21, C22); saving a file that was read
  changes it (C45); XY format loses digits (C46).
- MRC: names of DE images can be swapped or lost, big endian files are misread, axis names
  are wrong after removing length-one axes (C24, C48).
- SEMPER: non-ASCII or missing titles, long units, more than 32767 columns fail; the
  padding byte for odd rows is never written (C25, C26, C47).
- TVIPS: stale files of a longer series are read; single frames, version 1 headers and
  one-entry scan shapes fail (C27, C28, C29, C49, C50).
- Bruker SFS: reading an empty piece at the end and an empty file raise IndexError (C32,
  C33); the number of chunks of the file table is computed too small, so that every
  container with too many entries cannot be opened (C34); a directory listed after its
  content hides it (C52).
- Bruker maps: the compiled parser mis-decodes 8-byte groups (C31); the Python parser
  fails when no pulse lies in a pixel's last channel and when the last chunk is full;
  records longer than a chunk are cut off in Python (C53). The estimated cell type can
  truncate counts, and the signed types do not even hold the estimate (C54).
- Digital Micrograph: tags whose names differ by dots only, or are called like a numbered
  unnamed tag, replace each other; arrays of arrays and unknown types are misread without
  an error (C35); packed complex images of the new kind are mirrored row by row (C36); the
  pixels of big-endian files are byte-swapped (C55); superfluous calibrations shift all
  axes (C56).
- MIB: `last_frame` is ignored for interrupted scans and an empty range of frames fails
  (C37); buffers ignore `first_frame`, and quad buffers cannot be read (C38);
  `max_index=-1` leaves out the last frame (C39); zero frames per trigger stop the reader
  (C58); a detector with one row gets its frames in reverse order (C59).
- npy: arrays in Fortran order are read lazily with permuted elements (C61); axes of size
  zero get no axis (C65).
- PantaRhei: files written by this library are compressed, and reading them lazily returns
  compressed bytes as numbers (C62); single spectra, and spectra with three navigation
  axes, are written but cannot be read; scan axes come back transposed, energy axes first
  and reversed (C64); lists of the metadata are paired with wrong axes when an axis other
  than the first is dropped (C63).
- XML: the simple converter keeps the last of repeated elements, and loses children of an
  element with white space text; the general one turns a quoted number into a number only
  when its element is not repeated, and fails on empty elements that are to be flattened
  (C42); decimal commas of numbers with "E+7" stay (C41).
- EMPAD: names that do not start with "scan_" give a KeyError (C43).
- JEOL pts: images of maps wider than tall are scrambled, the frame axis and data differ in
  size for lists such as [1, 3], offsets in x and y are swapped (C67). Lazy reading drops
  lines of tall maps, fails with downsampling and with frames without X-rays, and does not
  shift the first line of later frames (C68).
- TIA: rows of images cannot be read because the size of the wrong dimension is looked at,
  files without dimensions never (C70); offsets stay in meters on axes in nm (C71); date and
  units of every ser file come from the first object of the emi file (C72).
- Digital Surf: private zones are read as the text of a bytes literal (C73); the least value of
  profiles and spectra is rounded to single precision, 16 bit colours in series become negative,
  series of one spectrum cannot be read (C74); surfaces of one integral value are all read as the
  same numbers, float32 data can turn the greatest value into the least (C75); files with a
  date and the time 00:00:00 cannot be written again, "CL Intensity" is cut, headers of several
  objects with several channels are mixed up (C76); comments lose text after spaces (C77).
- EDAX: maps are read in the byte order of the machine unless lazy (C79); spectra of versions
  before 0.7 are four bytes shorter than the header read by default (C78); the .csv file of
  "d/a.lsd" is searched for at "d/d/a.csv"; line scans of one point or one channel fail, and
  those of several lines have more dimensions than axes (C80).
- Renishaw: a block of size 0 is read for ever and a few zero bytes after the last block give
  IndexError (C81); arrays of one element become numbers, unknown flags are read as normal (C82);
  unfinished lines, series of one spectrum and series with two axes fail, origins of unfinished
  files are read with the wrong stride, the time axis has unit ns but steps of 100 ns (C83); a WXDM
  block fails with KeyError if all its names have values or none of its inner sets has spare
  values, the spare values not named are lost, and inner sets are confused if the name of one
  starts like another's; lasers without wavenumber give TypeError (C84).
- Quadstar: texts with a zero byte inside keep what stands behind it, an exponent above 308 gives
  OverflowError (C85).
- Topspin: for a column of patterns `index_in_array` of ky and kx is exchanged; lines from high to
  low y give a y step of the whole height; patterns in chunks give TypeError (C87); calibration of X
  goes to the axis y; an image cannot be chosen by address; AM and PM are dropped; nested booleans
  are always true; nested values of the same name overwrite each other (C88).
- Hamamatsu: a calibrated image of one column gives IndexError (C89); a = in a value needs the last
  value in quotes; a [ in a value, an empty last value and an empty comment give errors (C90);
  exposure time without number of exposures and a missing acquisition mode give TypeError; a blaze
  of 0 is compared as a text with a number, so the grating is kept (C91).
- Jobin Yvon: a row of one value is repeated to the length of the row; several rows without axes give
  more dimensions than axes; a spectrum of one value is an AttributeError (C92); an entry without
  key replaces the values of the one before (a NameError when first); a second text alone is a
  KeyError; a missing filter or hole is a TypeError, a date that is not two words a ValueError (C93).
- **Logs** (C94-C96): a DENS log of empty lines never ends, of one row is a ValueError, and a
  calibration without "=" an IndexError (C94); a Protochips log without a user loses its first row,
  without notes gets the note "False" in every row (C95); positions of Impulse valves above 7
  collide, live notes are cut at commas, an empty metadata row is an IndexError, and a missing
  metadata file, only warned about, a KeyError (C96).
- **Arina** (C97): the array is made as (images, width, height), so images that are not square give a
  ValueError; counts of 32 bits are cut to 16 bits; a group without datasets is a NameError.
- **netCDF** (C98): the list of navigation flags is not cut, so with fewer than three dimensions the
  energy is a navigation axis; if one axis has no scale no axis has one; four dimensions are an
  IndexError.
- **TriVista** (C99, C100): axes of stacked glued spectra have the index -1; a scan of glued spectra cannot
  be read as a stack; a hardware section with one detector, microscope, objective, spectrometer or
  grating only is a TypeError, since the entry is then no list; no enabled objective, or no fitting
  grating, is an AttributeError, no used spectrometer a NameError; a group "A1" is overwritten when
  there are two groups "A".
- Images: colours are dropped when green equals blue (channels 1 and 2 are compared twice, red never);
  one-row colour images are read as numbers and one-row grey ones are an IndexError; the axes of rows and
  columns have each other's index; aspects "equal" and "auto" are a TypeError when a size is computed.
- MRCZ: the units of the last axis are written for all, offsets are lost, and two axes are an IndexError.
- USID: attributes of the measurement group (where the writer puts all metadata) are never read, since the
  parent of the dataset is looked at twice; "A (b) [nA]" has the units "b nA"; metadata keys with hyphens,
  or a metadata group "Original", overwrite other entries.
- ELID: an image without picture is an AttributeError (`if tiff:` tests a pair, always true); analyses in the
  lists behind the images are read with empty metadata, a KeyError for all kinds but MSA and constructive;
  an MSA spectrum replaces the whole acquisition part of the image's metadata.
- Delmic: angle-resolved images without a concurrent image are "passed on" as the keys of a dictionary, a
  TypeError for the whole file; a value without State attribute is a KeyError (IndexError is caught) and its
  acquisition is left out; two unlabelled dimensions make reordering fail for the whole file.
- EMD (Berkeley): group names are compared as substrings of paths, so `signals/a` and `signals/ab` are stacked
  into one signal, or nothing is read if the shapes differ; of two datasets in one group the first is read
  twice and the second lost; stacks in files numbered from dim0 fail or have shifted axes; stacks are squeezed
  but the dimensions are not; `units=""` is written as `[]`; underscores in units and `_depth` in titles are lost.
- Tofwerk: with overlapping peak windows an event is counted for the window that begins last or not at all; a
  clock period above twice the sample interval is a ZeroDivisionError with numba only; peak tables in the
  metadata are not in the order of the axis and ignore `mz_range`; `depth_range` is applied to images after
  those of other shapes are dropped; later dips leave the axis of the sum spectrum unsorted.
- Nexus: a descending axis comes back ascending; uneven axes lose values and units; steps below 1e-8 count as even;
  `_getlink` reads `target` from the group around; `nxentry == rootlist[0]` should assign, so `use_default` never works
  for a single entry; the default matches as a part of the path; keys starting with `keys` are renamed; None, empty lists,
  lists of one, trailing blanks, `{"value": x}` and names of lists of dicts are lost; `{"value": None}` is a KeyError on
  writing; titles `auxiliary`, axes `data` and equal axis names break the file; three signal axes become navigation;
  metadata General other than the title is lost; by default axes are read as signals described by the wrong axis.
- Velox: the documented `select_type="image"` is a ValueError; single spectra beside images are lost without a spectrum
  image; `rebin_energy` stretches the axis of single spectra; `SuperXG1` is found in `SuperXG11`; the shape of a spectrum
  image is that of the last image read; axes of EELS cubes do not fit unless square; times west of Greenwich keep their zone.
- TIFF: FEI, TVIPS and Olympus files give the width of pixels to the height of the image; scales below 1e-8 are written as
  zero; the unit of y is lost when x has micrometres; with two navigation axes the second decides about the units and loses
  its scale; a unit outside of Latin-1 (the Greek mu) is a UnicodeEncodeError; forcing the resolution makes JEOL files
  unreadable; colours stored first are not read; a date with slashes is lost when there is a description; the scanning mode
  is `modeASID` in notes but `eosASID` in metadata, so they never agree; a FEI file with only the width of pixels keeps that
  without a unit; commas in values of Hamamatsu descriptions cut them, and a blank line there is an IndexError.
- Bruker: the width of a map is scaled with the distance of rows; the number of a map is the last character of its name, so
  maps 1 and 11 are the same; black planes are left out; an empty description gives the title "None"; a header without a date
  is a TypeError and a spectrum without a date an AttributeError; one selected element of an spx file is a text, not a list; its
  default name is "Undefinded"; a map without counts fails for "zealous"; neither an XRF nor an ESMA header is an AttributeError.
- Digital Micrograph: the energy axis of X-ray spectra is never named, because the kind
  `EDS_TEM` is compared with `EDS` and `EDX` (`C140_x_rays_refuted`).
- Digital Micrograph: of stacks made from other images, the kind of microscope is looked up
  outside of the source tags, so a SEM is not recognised (`C142_stack_refuted`).
- Digital Micrograph: detectors of X-ray spectra taken in a SEM are put below
  `Acquisition_instrument.TEM`, the beam below `SEM` (`C142_eds_refuted`).
- Not modelled: renaming a title with `write_dataset=False` creates a group without data;
  the titles "a/b" and "a-b" collide in hspy files; blockfile notes are written in UTF-8
  and read as Latin-1; `parse_msa_string` fails on empty lines; big endian arrays are
  written byte-swapped to SEMPER files; `BCF_reader` takes the index of a map from the
  last digit only; `memmap_distributed` with an offset and no shape reads too much.

## Trusted base

- The Coq kernel, checked again by `coqchk`. No axioms are declared; every property
  theorem is followed by `Print Assumptions`, and every one of them prints
  `Closed under the global context`. `coqchk` lists seven axioms of `Coq.ssr.ssrunder`, a
  file of the standard library that is loaded but that no theorem uses.
- The hand translation from Python (and Cython) to Gallina in the `*Model.v` files. It is
  not checked by a machine; the cited lines and the examples with concrete bytes are the
  means to review it.
- The behaviour of Python, numpy, struct, zlib, HDF5 and of the file system as written
  down in the models.
- No OCaml plugins, functors, module types or switched-off checks are used.
