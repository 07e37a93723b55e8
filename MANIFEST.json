{
 "claims": [
  {
   "property": "C01",
   "status": "proved",
   "theorems": [
    "C01",
    "C01_exact"
   ],
   "note": "C01 for every run (any arithmetic mode): chunks received are those delivered, output events are the groups of the received bytes with new times. C01_exact: in strict mode the times are exactly the specified ones with the corrections in force."
  },
  {
   "property": "C02",
   "status": "proved",
   "theorems": [
    "C02",
    "C02_total"
   ],
   "note": "C02: no OutOfBounds. C02_total: with wrapping arithmetic and defined stack contents the loop never traps."
  },
  {
   "property": "C03",
   "status": "proved",
   "theorems": [
    "C03"
   ],
   "note": "Event by event; at a running state the counts agree and no torn event was written."
  },
  {
   "property": "C04",
   "status": "proved",
   "theorems": [
    "C04"
   ],
   "note": "Includes totality (no overflow, no uninitialised read)."
  },
  {
   "property": "C05",
   "status": "partial",
   "theorems": [
    "C05_partial",
    "C05_refuted"
   ],
   "note": "Proved when the first read brings a complete event; C05_refuted shows the statement without that proviso is false (tscorr is read uninitialised)."
  },
  {
   "property": "C06",
   "status": "proved",
   "theorems": [
    "C06"
   ],
   "note": "Batch i (counted from 0) is within 3(i+1)/2 units."
  },
  {
   "property": "C07",
   "status": "proved",
   "theorems": [
    "C07"
   ],
   "note": "Order of the unwrapped corrected times; the written 54-bit times are these modulo 2^54."
  },
  {
   "property": "C08",
   "status": "partial",
   "theorems": [
    "C08_refuted",
    "C08_partial"
   ],
   "note": "C08_refuted: different splits give different bytes. C08_partial: times differ by less than 3(n1+n2)/2."
  },
  {
   "property": "C09",
   "status": "partial",
   "theorems": [
    "C09_refuted",
    "C09_partial"
   ],
   "note": "C09_refuted: a short read re-adds the last correction. C09_partial gives the exact effect."
  },
  {
   "property": "C10",
   "status": "proved",
   "theorems": [
    "C10"
   ],
   "note": "Runs with equal read sizes and equal frequency reads."
  },
  {
   "property": "C11",
   "status": "partial",
   "theorems": [
    "C11_refuted",
    "C11_partial",
    "C11_actual"
   ],
   "note": "C11_refuted: reads without newline are dropped. C11_partial: true when every frequency read has a newline; C11_actual: exact rule for all streams and splits."
  },
  {
   "property": "C12",
   "status": "partial",
   "theorems": [
    "C12_refuted",
    "C12_partial"
   ],
   "note": "C12_refuted: -2147483648 is accepted. C12_partial: it is the only exception."
  },
  {
   "property": "C13",
   "status": "partial",
   "theorems": [
    "C13_refuted",
    "C13_partial"
   ],
   "note": "C13_refuted: 4294967301 is read as 5. C13_partial: true for NUL-free lines whose number fits an int; C11_actual: exact rule."
  },
  {
   "property": "C14",
   "status": "partial",
   "theorems": [
    "C14_refuted",
    "C14_partial",
    "C14_actual"
   ],
   "note": "C14_refuted: -f -2147483648 and -d with |n|>=1250000000 are accepted. C14_partial: as documented otherwise. C14_actual: exact rule for every int."
  },
  {
   "property": "C15",
   "status": "proved",
   "theorems": [
    "C15",
    "C15_same",
    "C15_total"
   ],
   "note": "Every spelling of the documented options with usable arguments; C15_same compares two spellings; C15_total: the option loop always ends."
  },
  {
   "property": "C16",
   "status": "partial",
   "theorems": [
    "C16_refuted",
    "C16_partial",
    "C16_extent"
   ],
   "note": "C16_refuted: a 200-character name writes 201 bytes. C16_partial: safe when no word has 200 consecutive non-blank characters; C16_extent: at most one byte over."
  },
  {
   "property": "C17",
   "status": "proved",
   "theorems": [
    "C17"
   ],
   "note": "Prefix at every stop: C01, C01_exact (prefix clauses) and C17 (longer runs only append)."
  },
  {
   "property": "C18",
   "status": "partial",
   "theorems": [
    "C18_refuted",
    "C18_partial"
   ],
   "note": "C18_refuted; C18_partial gives the exact error f*(2^30-2^20)."
  },
  {
   "property": "C19",
   "status": "proved",
   "theorems": [
    "C19"
   ],
   "note": "Times in any dtype and any of the three resolutions, np_float of at least 54 bits."
  },
  {
   "property": "C20",
   "status": "partial",
   "theorems": [
    "C20_refuted",
    "C20_partial"
   ],
   "note": "C20_refuted. C20_partial: round trip for >= 2 events on one side of 2^53, TypeError otherwise."
  },
  {
   "property": "C21",
   "status": "partial",
   "theorems": [
    "C21_refuted",
    "C21_partial"
   ],
   "note": "C21_refuted. C21_partial: what is read is float64(t); equal to t when t <= 2^53 or even; an empty file raises TypeError."
  },
  {
   "property": "C22",
   "status": "proved",
   "theorems": [
    "C22",
    "C22_read"
   ],
   "note": "C22 for _format_timestamps on every 54-bit time; C22_read through each reader (a0 only where float64 holds the time, see C21)."
  },
  {
   "property": "C23",
   "status": "partial",
   "theorems": [
    "C23_refuted",
    "C23_partial"
   ],
   "note": "C23_refuted: the in-memory text readers raise on files the streaming ones read. C23_partial: they agree wherever the in-memory reader succeeds."
  },
  {
   "property": "C24",
   "status": "proved",
   "theorems": [
    "C24"
   ],
   "note": "Equal results, and failure exactly together."
  },
  {
   "property": "C25",
   "status": "proved",
   "theorems": [
    "C25",
    "C25_same",
    "C25_raw"
   ],
   "note": "Any partition into batches, empty ones included. C25_same compares with print_statistics; C25_raw gives the reported time for raw data."
  },
  {
   "property": "C26",
   "status": "proved",
   "theorems": [
    "C26"
   ],
   "note": "Exact-match modes for any integers."
  },
  {
   "property": "C27",
   "status": "partial",
   "theorems": [
    "C27_refuted",
    "C27_partial",
    "C27_actual"
   ],
   "note": "C27_refuted for uint64 times from 2^53 on. C27_partial: otherwise exact for bounds rounded to float64. C27_actual: every sorted array."
  },
  {
   "property": "C28",
   "status": "proved",
   "theorems": [
    "C28"
   ],
   "note": "Any dtype, any filter arguments."
  },
  {
   "property": "C29",
   "status": "partial",
   "theorems": [
    "C29_refuted",
    "C29_partial",
    "C29_memory_partial",
    "C29_lost_time"
   ],
   "note": "C29_refuted (C29_lost_time: time 2^54-1 in an a0 file becomes 0). C29_partial (streaming) and C29_memory_partial (--inmemory) give the exact conditions under which conversion is lossless."
  },
  {
   "property": "C30",
   "status": "partial",
   "theorems": [
    "C30_refuted",
    "C30_partial",
    "C30_stream"
   ],
   "note": "C30_refuted: read_a1 ignores 1-3 extra bytes. C30_partial: exact behaviour of read_a1; C30_stream: sread_a1 rejects every incomplete file."
  },
  {
   "property": "C31",
   "status": "proved",
   "theorems": [
    "C31",
    "C31_zero"
   ],
   "note": "Python-int timestamps (see C67 for arrays); the one event word that is zero is excluded, C31_zero says what it does."
  },
  {
   "property": "C32",
   "status": "proved",
   "theorems": [
    "C32"
   ],
   "note": "PS4 gives Python ints, the other resolutions uint64 without overflow."
  },
  {
   "property": "C33",
   "status": "proved",
   "theorems": [
    "C33"
   ],
   "note": "Error at most 16 units of 4 ps, none below 2^64 units; order kept."
  },
  {
   "property": "C34",
   "status": "partial",
   "theorems": [
    "C34_refuted",
    "C34_partial"
   ],
   "note": "C34_refuted: a cut inside the last event goes unnoticed. C34_partial: exact result for every cut."
  },
  {
   "property": "C35",
   "status": "proved",
   "theorems": [
    "C35",
    "C35_buffer"
   ],
   "note": "Widths 0..32, any byte file, zeros after its end; C35_buffer for use without a file."
  },
  {
   "property": "C36",
   "status": "proved",
   "theorems": [
    "C36"
   ],
   "note": "Every timeorder 1..32, basebits 0..32, short and extended entries, anything after the terminator; times below 2^53 units."
  },
  {
   "property": "C37",
   "status": "partial",
   "theorems": [
    "C37_refuted",
    "C37_T2_partial",
    "C37_T4_partial",
    "C37_T2_loops",
    "C37_T4_loops",
    "C37_cut",
    "C37_header",
    "C37_wide"
   ],
   "note": "C37_refuted: a file without terminator loops for ever. C37_T2/T4_partial and _loops: they end exactly when a terminator is present, with a bound on the passes."
  },
  {
   "property": "C38",
   "status": "partial",
   "theorems": [
    "C38_refuted",
    "C38_partial",
    "C38_PS4"
   ],
   "note": "C38_refuted and C38_PS4: integer PS4 results raise TypeError for every non-empty file. C38_partial: exact in all other settings."
  },
  {
   "property": "C39",
   "status": "proved",
   "theorems": [
    "C39"
   ],
   "note": "Sums of d-2 as the filespec says."
  },
  {
   "property": "C40",
   "status": "proved",
   "theorems": [
    "C40",
    "C40_index",
    "C40_struct",
    "C40_short"
   ],
   "note": "Every file: C40 and the three error cases. qber within 0.0005 + 2^-52 of the error fraction. An empty T3 file triggers the size message."
  },
  {
   "property": "C41",
   "status": "proved",
   "theorems": [
    "C41",
    "C41_injective",
    "C41_write",
    "C41_padding"
   ],
   "note": "All n >= 0. C41_write: no header warning from any directory path without further slashes in the name."
  },
  {
   "property": "C42",
   "status": "partial",
   "theorems": [
    "C42_refuted",
    "C42_partial"
   ],
   "note": "C42_refuted: s = 2^20 gives the epoch before. C42_partial: right unless s is a multiple of 2^20, and then at most one less."
  },
  {
   "property": "C43",
   "status": "proved",
   "theorems": [
    "C43"
   ],
   "note": "Any directories of hexadecimal names (padded or upper-case too)."
  },
  {
   "property": "C44",
   "status": "partial",
   "theorems": [
    "C44_refuted",
    "C44_partial",
    "C44_concat",
    "C44_missing"
   ],
   "note": "C44_refuted: times restart every 2^17 epochs. C44_partial: in order within a 2^17 block; C44_concat and C44_missing for every directory."
  },
  {
   "property": "C45",
   "status": "proved",
   "theorems": [
    "C45",
    "C45_rounded",
    "C45_separate"
   ],
   "note": "Exact for device timestamps; C45_rounded for arbitrary values in any precision (the selection is exact, differences rounded); C45_separate for preserve_relative=False."
  },
  {
   "property": "C46",
   "status": "proved",
   "theorems": [
    "C46",
    "C46_exact",
    "C46_rounded"
   ],
   "note": "Device timestamps; C46_exact whenever the subtractions are exact; C46_rounded in general, with the IndexError for an empty selection."
  },
  {
   "property": "C47",
   "status": "proved",
   "theorems": [
    "C47"
   ],
   "note": "Any element type."
  },
  {
   "property": "C48",
   "status": "proved",
   "theorems": [
    "C48"
   ],
   "note": "Exact floor division, as numpy computes it for quotients below 2^51."
  },
  {
   "property": "C49",
   "status": "proved",
   "theorems": [
    "C49",
    "C49_exact"
   ],
   "note": "For any computed correlation less than 1/2 off per bin; C49_exact: the exact one qualifies. The FFT itself is not modelled."
  },
  {
   "property": "C50",
   "status": "proved",
   "theorems": [
    "C50"
   ],
   "note": "First maximum at ties."
  },
  {
   "property": "C51",
   "status": "partial",
   "theorems": [
    "C51_refuted",
    "C51_partial",
    "C51_center_partial",
    "C51_float",
    "C51_flat"
   ],
   "note": "C51_refuted: a float center raises TypeError (C51_float). C51_partial: no center given; C51_center_partial: int center; C51_flat: with exact mean and deviation."
  },
  {
   "property": "C52",
   "status": "proved",
   "theorems": [
    "C52",
    "C52_odd"
   ],
   "note": "C52_odd: with an odd number of bins one time is missing."
  },
  {
   "property": "C53",
   "status": "proved",
   "theorems": [
    "C53",
    "C53_fpfind"
   ],
   "note": "Exact arithmetic; the corrections are those found from the target times of each iteration. C53_fpfind includes the precompensation."
  },
  {
   "property": "C54",
   "status": "proved",
   "theorems": [
    "C54"
   ],
   "note": "Any rounding and correlation."
  },
  {
   "property": "C55",
   "status": "proved",
   "theorems": [
    "C55",
    "C55_exact",
    "C55_count",
    "C55_reduction",
    "C55_sharp"
   ],
   "note": "Float64 scalars (C55), exact arithmetic (C55_exact), with a number of iterations (C55_count, C55_reduction); C55_sharp: at the limit itself the loop may never end."
  },
  {
   "property": "C56",
   "status": "proved",
   "theorems": [
    "C56",
    "C56_fpfind"
   ],
   "note": "For any search; C56_fpfind instantiates it."
  },
  {
   "property": "C57",
   "status": "partial",
   "theorems": [
    "C57_refuted",
    "C57_never"
   ],
   "note": "C57_refuted; C57_never: with fullscan the for-else always raises. Nothing of the property holds."
  },
  {
   "property": "C58",
   "status": "partial",
   "theorems": [
    "C58_refuted",
    "C58_partial",
    "C58_enough_partial",
    "C58_scan_partial"
   ],
   "note": "C58_refuted: IndexError on data shorter than the separation. C58_partial: no other exception but ValueError and IndexError; C58_enough_partial: only ValueError when the data reach far enough; C58_scan_partial for the scan."
  },
  {
   "property": "C59",
   "status": "proved",
   "theorems": [
    "C59",
    "C59_ordered",
    "C59_zero"
   ],
   "note": "Any rounding of the values; C59_ordered, C59_zero."
  },
  {
   "property": "C60",
   "status": "partial",
   "theorems": [
    "C60_refuted",
    "C60_partial",
    "C60_only_partial",
    "C60_other_partial"
   ],
   "note": "C60_refuted. C60_partial: the exact remaining offset; C60_only_partial: right exactly when dt or df is 0; C60_other_partial: the formula fits corrections that scale before they shift."
  },
  {
   "property": "C61",
   "status": "partial",
   "theorems": [
    "C61_refuted",
    "C61_refused",
    "C61_partial",
    "C61_inverted_partial"
   ],
   "note": "C61_refuted by a run whose output freqcd refuses, C61_refused the same inverted. C61_partial, C61_inverted_partial: accepted, with the right value, away from the limit. Composed with freqcd's command line model."
  },
  {
   "property": "C62",
   "status": "proved",
   "theorems": [
    "C62",
    "C62_unique"
   ],
   "note": "Every flag value and rounding; C62_unique: the digits determine the number."
  },
  {
   "property": "C63",
   "status": "proved",
   "theorems": [
    "C63",
    "C63_refused",
    "C63_read"
   ],
   "note": "Also refusals (C63_refused) and the whole -t output read back (C63_read)."
  },
  {
   "property": "C64",
   "status": "partial",
   "theorems": [
    "C64_refuted",
    "C64_actual"
   ],
   "note": "C64_refuted; C64_actual: with and without -x the events are in the new order. Nothing of the property holds."
  },
  {
   "property": "C65",
   "status": "partial",
   "theorems": [
    "C65_refuted",
    "C65_overwritten",
    "C65_partial"
   ],
   "note": "C65_refuted; C65_overwritten: any file named is overwritten with standard input. C65_partial: the times printed are those of standard input, right for '-'."
  },
  {
   "property": "C66",
   "status": "proved",
   "theorems": [
    "C66",
    "C66_decreasing"
   ],
   "note": "C66 and monotonicity."
  },
  {
   "property": "C67",
   "status": "partial",
   "theorems": [
    "C67_refuted",
    "C67_partial",
    "C67_left"
   ],
   "note": "C67_refuted. C67_partial: int64 arrays work when bit 16 of the epoch is clear, otherwise struct.error; uint64 arrays raise TypeError. C67_left: the remains are rejected by read_T1."
  },
  {
   "property": "C68",
   "status": "proved",
   "theorems": [
    "C68"
   ],
   "note": "Exact result for every byte string."
  },
  {
   "property": "C69",
   "status": "proved",
   "theorems": [
    "C69"
   ],
   "note": "From events to the delay; the correlation is any one less than 1/2 off per bin."
  },
  {
   "property": "C70",
   "status": "proved",
   "theorems": [
    "C70",
    "C70_one"
   ],
   "note": "For every possible result of argpartition and argsort; C70_one for k = 1."
  },
  {
   "property": "C71",
   "status": "proved",
   "theorems": [
    "C71",
    "C71_total"
   ],
   "note": "Exact mean, variance and square root; rounding of float64 is not modelled here."
  },
  {
   "property": "C72",
   "status": "partial",
   "theorems": [
    "C72_refuted",
    "C72_never",
    "C72_exact"
   ],
   "note": "C72_refuted; C72_never, C72_exact: np.hstack is called with two arguments, so no number is ever returned, None for a constant background, TypeError otherwise. Nothing of the property holds."
  },
  {
   "property": "C73",
   "status": "partial",
   "theorems": [
    "C73_refuted",
    "C73_partial"
   ],
   "note": "C73_refuted: two of the four examples differ. C73_partial: the actual lists."
  },
  {
   "property": "C74",
   "status": "proved",
   "theorems": [
    "C74",
    "C74_plain"
   ],
   "note": "The base class's message is a parameter; C74_plain for the other format."
  },
  {
   "property": "C75",
   "status": "partial",
   "theorems": [
    "C75_refuted",
    "C75_actual",
    "C75_partial"
   ],
   "note": "C75_refuted: the last stamp is never discarded. C75_actual: what is counted; C75_partial: right if the last stamp is near all events."
  },
  {
   "property": "C76",
   "status": "partial",
   "theorems": [
    "C76_refuted",
    "C76_never",
    "C76_arrays"
   ],
   "note": "C76_refuted; C76_never: always an exception, and C76_arrays: the arrays are shifted before it. Nothing of the property holds."
  },
  {
   "property": "C77",
   "status": "proved",
   "theorems": [
    "C77",
    "C77_fpfind"
   ],
   "note": "Exact arithmetic."
  },
  {
   "property": "C78",
   "status": "proved",
   "theorems": [
    "C78",
    "C78_total"
   ],
   "note": "C78_total: every text splits into pieces."
  },
  {
   "property": "C79",
   "status": "proved",
   "theorems": [
    "C79",
    "C79_short"
   ],
   "note": "Float64 rounding included in C79."
  },
  {
   "property": "C80",
   "status": "proved",
   "theorems": [
    "C80"
   ],
   "note": "Through reading the files, normalisation and the whole search, in the formats of the program (longdouble of 63 bits or more)."
  },
  {
   "property": "C81",
   "status": "proved",
   "theorems": [
    "C81"
   ],
   "note": "For searches that end in the first iteration (target resolution = initial resolution)."
  },
  {
   "property": "C82",
   "status": "partial",
   "theorems": [
    "C82_refuted",
    "C82_partial",
    "C82_file"
   ],
   "note": "C82_refuted: one event, or equal first and last times: int(inf) raises OverflowError after the duration. C82_partial: exactly then, with any filters; C82_file for a file, in float64."
  },
  {
   "property": "C83",
   "status": "proved",
   "theorems": [
    "C83",
    "C83_all"
   ],
   "note": "C83_all with any filters. np.log10 is a parameter assumed right to its whole part."
  },
  {
   "property": "C84",
   "status": "proved",
   "theorems": [
    "C84"
   ],
   "note": "Streaming (float64) and in memory (longdouble)."
  },
  {
   "property": "C85",
   "status": "proved",
   "theorems": [
    "C85"
   ],
   "note": "numpy's floor division taken as exact."
  },
  {
   "property": "C86",
   "status": "proved",
   "theorems": [
    "C86"
   ],
   "note": "From the option text to the bytes written; C81 and C88 give the 2^-51."
  },
  {
   "property": "C87",
   "status": "proved",
   "theorems": [
    "C87",
    "C87_rounding",
    "C87_limit"
   ],
   "note": "That the peaks found are genuine is a hypothesis (C69, C70 and C81 give it for shifted events). C87_rounding: float64 and exact arithmetic as cases. C87_limit: the error in closed form."
  },
  {
   "property": "C88",
   "status": "proved",
   "theorems": [
    "C88"
   ],
   "note": "For searches that end in the first iteration, without precompensation; C87 is about several iterations."
  },
  {
   "property": "C89",
   "status": "proved",
   "theorems": [
    "C89"
   ],
   "note": "C86 and C88 composed."
  },
  {
   "property": "C90",
   "status": "proved",
   "theorems": [
    "C90",
    "C90_offsets"
   ],
   "note": "For events a timestamp device can record (54-bit times, 4 detectors); C90_offsets is C88 for directories."
  },
  {
   "property": "C91",
   "status": "proved",
   "theorems": [
    "C91",
    "C91_zero",
    "C91_epochs"
   ],
   "note": "Up to the call of S15lib's histogram, which is not modelled."
  },
  {
   "property": "C92",
   "status": "proved",
   "theorems": [
    "C92"
   ],
   "note": "The whole script. The hypothesis bounds detuned times by 2^54 - 8."
  },
  {
   "property": "C93",
   "status": "proved",
   "theorems": [
    "C93",
    "C93_accurate",
    "C93_fpfind"
   ],
   "note": "C93 for any correction, C93_accurate for a constant one, C93_fpfind with fpfind's number."
  },
  {
   "property": "C94",
   "status": "proved",
   "theorems": [
    "C94"
   ],
   "note": "Composition of C92 and C93_fpfind; c4e3.dat (1e-3) is beyond freqcd's limit of 2^-13."
  },
  {
   "property": "C95",
   "status": "proved",
   "theorems": [
    "C95",
    "C95_fpfind",
    "C95_exact"
   ],
   "note": "Scalars and timestamps in exact arithmetic; the correlation with an error of at most e. Significance decides only k and is left open. C95_fpfind: with precompensation. C95_exact: e = 0 for exact transforms."
  },
  {
   "property": "C96",
   "status": "partial",
   "theorems": [
    "C96_refuted",
    "C96_actual",
    "C96_partial"
   ],
   "note": "C96_refuted: after k merges the early delay is taken modulo num_bins * res, the late one modulo 2^k times that, so a delay between gives a frequency offset of a multiple of num_bins * res / separation. C96_partial: exactly the delays within the early range are found with 0. C96_actual: what is returned in all cases."
  },
  {
   "property": "C97",
   "status": "proved",
   "theorems": [
    "C97",
    "C97_exact",
    "C97_odd"
   ],
   "note": "Over Coq's real numbers (standard library axioms sig_not_dec, sig_forall_dec, functional_extensionality_dep). C97_exact: the correlation used by the model of the search. C97_odd: odd lengths. Floating-point errors of the transforms are a parameter (near_correlation, accurate_to)."
  },
  {
   "property": "C98",
   "status": "proved",
   "theorems": [
    "C98",
    "C98_fpfind"
   ],
   "note": "From C95 and the error recursion of C87; exact scalars (u = 0). The condition is on pairs of events of the data only, no histogram or transform. C98_fpfind: with precompensation. C98_case: a run of two iterations meeting the condition."
  },
  {
   "property": "C99",
   "status": "proved",
   "theorems": [
    "C99",
    "C99_rounding"
   ],
   "note": "C98 with rounding. C99_rounding: float64 meets the hypotheses. The jitter j has to include what the rounding of the target times moved them. C99_case: the run of C98 in float64/longdouble arithmetic."
  },
  {
   "property": "C100",
   "status": "proved",
   "theorems": [
    "C100"
   ],
   "note": "The whole program from the argument vector to the file system, for regular files: reads of 8192 bytes, so batches of 1024 events. Also: it ends (fuel), no trap."
  },
  {
   "property": "C101",
   "status": "partial",
   "theorems": [
    "C101_refuted",
    "C101_actual"
   ],
   "note": "C101_refuted: in each turn of the loop the input is read before the frequency file, so the first 1024 events get the value of -f. C101_actual: these are accurate for f; of later ones the time since event 1023 is accurate for the file's g."
  },
  {
   "property": "C102",
   "status": "proved",
   "theorems": [
    "C102"
   ],
   "note": "Any memory contents, trapping or wrapping arithmetic."
  },
  {
   "property": "C103",
   "status": "partial",
   "theorems": [
    "C103_refuted",
    "C103_partial",
    "C103_actual"
   ],
   "note": "C103_refuted, C103_actual: -i and -o naming the same file empties it, exit code 0. C103_partial: every file other than the output is unchanged."
  },
  {
   "property": "C104",
   "status": "partial",
   "theorems": [
    "C104_refuted",
    "C104_partial",
    "C104_missing"
   ],
   "note": "C104_refuted: the output is emptied before a missing -F file is noticed (exit code -11). C104_partial: this is the only case, and only the output file. C104_missing: the exit codes for missing files."
  },
  {
   "property": "C105",
   "status": "proved",
   "theorems": [
    "C105"
   ],
   "note": "C99 for main on two timestamp files (-t, -T), skip duration 0. The bounds are C99's plus the rounding of the last steps of fpfind. That a line is printed is a hypothesis: the significance of the peaks is not implied by the signal."
  },
  {
   "property": "C106",
   "status": "proved",
   "theorems": [
    "C106"
   ],
   "note": "C105 composed with C100. C106_case: events 2^29 ns apart in the reference are so in the file written by freqcd, up to 1 ns."
  },
  {
   "property": "C107",
   "status": "proved",
   "theorems": [
    "C107",
    "C107_freqcd"
   ],
   "note": "C105 and C106 with any list of precompensations, C107_freqcd for the stream corrected by freqcd. Without -P the list is [0]. fullscan is off (C57: with it fpfind always raises)."
  },
  {
   "property": "C108",
   "status": "proved",
   "theorems": [
    "C108"
   ],
   "note": "The general form of tests/freqcd/test_freqcd.py. C108_case is its input."
  },
  {
   "property": "C109",
   "status": "proved",
   "theorems": [
    "C109"
   ],
   "note": "C109_case: 1000000 and -999942 units. The comment in generate_freqcd_testcase.py uses -999933 as inverse, which is 9 units off the nearest; C109 holds for it without the restored part."
  },
  {
   "property": "C110",
   "status": "partial",
   "theorems": [
    "C110_partial",
    "C110_refuted"
   ],
   "note": "C110_refuted: a run in which both searches are right to 2 ns and 10^-9 and the sum is 254 ns. C110_partial: the frequencies as stated; t1 (1 + f2) + t2 = 0, with the frequency of the other side; the tests' sum is D F (1 + 1 / (1 + F)), about 2 D F. The same formula is in main's inverted output (C60)."
  },
  {
   "property": "C111",
   "status": "proved",
   "theorems": [
    "C111"
   ],
   "note": "C99 and C110 say what is returned if something is; this says that something is. within_reach and significant quantify over the states of the search, as stand_out does; ExistCheck decides them for concrete recordings."
  },
  {
   "property": "C112",
   "status": "proved",
   "theorems": [
    "C112"
   ],
   "note": "With C106 freqcd then brings the target in step."
  },
  {
   "property": "C113",
   "status": "proved",
   "theorems": [
    "C113"
   ],
   "note": "argparse is modelled from Python 3.8-3.11 (ArgModel.v), compared with the library on random command lines (tools/argparse_check.py)."
  },
  {
   "property": "C114",
   "status": "proved",
   "theorems": [
    "C114"
   ],
   "note": "C112 through the command line."
  },
  {
   "property": "C115",
   "status": "proved",
   "theorems": [
    "C115"
   ],
   "note": ""
  },
  {
   "property": "C116",
   "status": "partial",
   "theorems": [
    "C116_refuted",
    "C116_partial"
   ],
   "note": "C116_refuted, C116_partial: there is no option -n, the command line is always refused with exit code 2."
  },
  {
   "property": "C117",
   "status": "partial",
   "theorems": [
    "C117_refuted",
    "C117_partial"
   ],
   "note": "C117_refuted: --precomp-start -1e-6 is refused. C117_partial: accepted exactly if the number does not begin with a dash, or has no exponent and does not end with the point."
  },
  {
   "property": "C118",
   "status": "proved",
   "theorems": [
    "C118",
    "C118_nothing",
    "C118_no_file",
    "C118_format"
   ],
   "note": "C118_nothing, C118_no_file, C118_format: the refused command lines. Streaming onto the input itself is C120. argparse compared with the library on random command lines (tools/argparse_check2.py)."
  },
  {
   "property": "C119",
   "status": "proved",
   "theorems": [
    "C119"
   ],
   "note": "C29 from the command line."
  },
  {
   "property": "C120",
   "status": "partial",
   "theorems": [
    "C120_refuted",
    "C120_actual",
    "C120_partial"
   ],
   "note": "C120_refuted, C120_actual: without --inmemory the output is emptied before the input is read; the file is empty afterwards, exit code 0. C120_partial: with --inmemory."
  },
  {
   "property": "C121",
   "status": "partial",
   "theorems": [
    "C121_refuted",
    "C121_actual",
    "C121_partial"
   ],
   "note": "C121_refuted, C121_actual: options between the two file names are refused with exit code 2 (argparse gives the optional output name to nobody when it meets the option). C121_partial: everywhere else."
  },
  {
   "property": "C122",
   "status": "proved",
   "theorems": [
    "C122"
   ],
   "note": "C119 twice."
  },
  {
   "property": "C123",
   "status": "proved",
   "theorems": [
    "C123"
   ],
   "note": "C113 with C111. The times to be skipped are multiples of 1/256 ns after float64 rounding (whole seconds, for instance)."
  },
  {
   "property": "C124",
   "status": "proved",
   "theorems": [
    "C124"
   ],
   "note": "C113 with C90 and C111."
  },
  {
   "property": "C125",
   "status": "proved",
   "theorems": [
    "C125"
   ],
   "note": "C123 with C91. fpplot from the option values (its parser is another package's)."
  },
  {
   "property": "C126",
   "status": "proved",
   "theorems": [
    "C126"
   ],
   "note": "An event of 64 zero bits, which ends a T1 file, is excluded."
  },
  {
   "property": "C127",
   "status": "partial",
   "theorems": [
    "C127_refuted",
    "C127_partial",
    "C127_integers"
   ],
   "note": "C127_refuted: the last 64 ps before the recording's clock starts anew may be rounded up to the next turn, and come out as 0 after the modulo. C127_partial: everywhere else. C127_integers: the integers, always."
  },
  {
   "property": "C128",
   "status": "proved",
   "theorems": [
    "C128",
    "C128_readme"
   ],
   "note": "C118 with C82 - C85. C128_readme: the README's command line."
  },
  {
   "property": "C129",
   "status": "proved",
   "theorems": [
    "C129",
    "C129_readme"
   ],
   "note": "C100 with the correction rounded to units of 2^-34. C129_readme: the README's command line."
  },
  {
   "property": "C130",
   "status": "partial",
   "theorems": [
    "C130_refuted",
    "C130_partial",
    "C130_actual"
   ],
   "note": "C130_refuted: -x sets a local variable, the words are in the new order. C130_partial: without -x. C130_actual: what happens with and without it, and at negative times."
  },
  {
   "property": "C131",
   "status": "proved",
   "theorems": [
    "C131"
   ],
   "note": "without -o and -t; 54 bits of precision of the float type or more"
  },
  {
   "property": "C132",
   "status": "partial",
   "theorems": [
    "C132_refuted",
    "C132_actual",
    "C132_overwritten"
   ],
   "note": "C132_refuted: the first line prints the help and exits with 1 (C132_actual), the second replaces the file with standard input (C132_overwritten)."
  },
  {
   "property": "C133",
   "status": "proved",
   "theorems": [
    "C133"
   ],
   "note": "the exit code is 1 because EOFError is not caught; Ctrl-C is not modelled"
  },
  {
   "property": "C134",
   "status": "proved",
   "theorems": [
    "C134",
    "C134_twice"
   ],
   "note": "C130, C108 and C131 in one; C134_twice: the second example of the script's header."
  },
  {
   "property": "C135",
   "status": "proved",
   "theorems": [
    "C135"
   ],
   "note": "-Z and epoch directories are C123 and C113"
  },
  {
   "property": "C136",
   "status": "proved",
   "theorems": [
    "C136"
   ],
   "note": "frequency differences up to 2^-13, the limit of freqcd's correction in these units; without precompensation the list of frequencies is the single 0"
  },
  {
   "property": "C137",
   "status": "proved",
   "theorems": [
    "C137",
    "C137_accurate"
   ],
   "note": "Over Coq's real numbers (standard library axioms sig_not_dec, sig_forall_dec, functional_extensionality_dep). C137_accurate: the resulting bound for all histograms with at most a and b events, the hypothesis of the theorems about the search. That scipy's transforms have such errors is not proved."
  },
  {
   "property": "C138",
   "status": "proved",
   "theorems": [
    "C138"
   ],
   "note": "C123 with the transforms of C137; axioms as for C137"
  },
  {
   "property": "C139",
   "status": "proved",
   "theorems": [
    "C139"
   ],
   "note": "C111 with its conditions on the states of the search derived from the recordings; significant is left, a condition on the first correlation only"
  },
  {
   "property": "C140",
   "status": "proved",
   "theorems": [
    "C140"
   ],
   "note": "C123 with the conditions of C139"
  },
  {
   "property": "C141",
   "status": "partial",
   "theorems": [
    "C141_partial",
    "C141_refuted"
   ],
   "note": "proved when what can be left after an iteration is less than ten times what has been found (steady); refuted without: 20000 ns late and 2^-17 fast, the first iteration at 1024 ns finds 20480 ns and no frequency offset, the second is taken for spurious (fpfind.py 245-265), and fpfind returns 20480 ns and 0 without an error"
  },
  {
   "property": "C142",
   "status": "proved",
   "theorems": [
    "C142"
   ],
   "note": "C140 with steady, a condition on the parameters and the clock relation"
  },
  {
   "property": "C143",
   "status": "proved",
   "theorems": [
    "C143"
   ],
   "note": "lines 245-265; the bound 10.01 instead of 10 leaves room for rounding; that nothing less than 9.99 times ends the search is part of ended in C81 and the theorems after it"
  },
  {
   "property": "C144",
   "status": "partial",
   "theorems": [
    "C144_refuted",
    "C144_partial"
   ],
   "note": "C144_refuted: --precomp-start=-1e-6 is refused too, configargparse splits the word before argparse sees it. C144_partial: accepted exactly if the number would be accepted as a word of its own (C117)."
  },
  {
   "property": "C145",
   "status": "proved",
   "theorems": [
    "C145"
   ],
   "note": "prominent (PromSpec.v) replaces significant of C141; the standard score is assumed to be computed to one part in a thousand (fair_zs, proved for the exact one and, in C147, for doubles)"
  },
  {
   "property": "C146",
   "status": "proved",
   "theorems": [
    "C146"
   ],
   "note": "C145 through main, as C142"
  },
  {
   "property": "C147",
   "status": "proved",
   "theorems": [
    "C147"
   ],
   "note": "score_of leaves the order of the additions open; in_doubles gives good_zs and fair_zs, so that C145 and C146 hold for scores in doubles"
  },
  {
   "property": "C148",
   "status": "partial",
   "theorems": [
    "C148_partial",
    "C148_refuted"
   ],
   "note": "C148_partial: integers of at most 2^53 in total; C148_refuted: three bins of 0.1"
  },
  {
   "property": "C149",
   "status": "partial",
   "theorems": [
    "C149_refuted",
    "C149_partial",
    "C149_actual",
    "C149_flags"
   ],
   "note": "C149_partial: values not beginning with a dash, and negative numbers; C149_refuted: -1e3; C149_actual: exit code 2 for all such values; C149_flags: = after an option without a value"
  },
  {
   "property": "C150",
   "status": "partial",
   "theorems": [
    "C150_refuted",
    "C150_partial"
   ],
   "note": "C150_partial: any number of figures but 16; C150_refuted: 16 figures of the float64 after 10^23"
  },
  {
   "property": "C151",
   "status": "partial",
   "theorems": [
    "C151_refuted",
    "C151_overflow",
    "C151_partial",
    "C151_close"
   ],
   "note": "C151_partial: up to 2^53; C151_close: error of all below 10^307; C151_refuted: 10^23 with 3 figures; C151_overflow: 2^1024"
  },
  {
   "property": "C152",
   "status": "partial",
   "theorems": [
    "C152_refuted",
    "C152_partial"
   ],
   "note": "C152_partial: whole numbers and calls without sf; C152_refuted: a str for every float with sf"
  },
  {
   "property": "C153",
   "status": "proved",
   "theorems": [
    "C153",
    "C153_outcome"
   ],
   "note": "C153; C153_outcome: the outcomes are those of the search"
  },
  {
   "property": "C154",
   "status": "proved",
   "theorems": [
    "C154"
   ],
   "note": "C154"
  },
  {
   "property": "C155",
   "status": "partial",
   "theorems": [
    "C155_refuted",
    "C155_partial",
    "C155_actual"
   ],
   "note": "C155_partial: the other three messages; C155_refuted: 5.196 shown with 16384 ns, where it is 5; C155_actual: always half the resolution shown"
  },
  {
   "property": "C156",
   "status": "partial",
   "theorems": [
    "C156_refuted",
    "C156_partial",
    "C156_stderr"
   ],
   "note": "C156_partial: fpfind's own records, and nothing else; C156_refuted: a warning of parse_epochs; C156_stderr: what standard error has"
  },
  {
   "property": "C157",
   "status": "partial",
   "theorems": [
    "C157_refuted",
    "C157_actual",
    "C157_partial"
   ],
   "note": "C157_partial: logging is not blocked; C157_refuted: an error appears; C157_actual: the option makes no difference"
  },
  {
   "property": "C158",
   "status": "partial",
   "theorems": [
    "C158_refuted",
    "C158_partial"
   ],
   "note": "C158_partial: once, level of the last call, form of the first; C158_refuted: two calls with different forms"
  },
  {
   "property": "C159",
   "status": "proved",
   "theorems": [
    "C159",
    "C159_ones",
    "C159_none",
    "C159_one",
    "C159_length"
   ],
   "note": "Over Coq's real numbers (standard library axioms sig_not_dec, sig_forall_dec, functional_extensionality_dep)."
  },
  {
   "property": "C160",
   "status": "proved",
   "theorems": [
    "C160",
    "C160_plain"
   ],
   "note": "C160_plain: on digits and newlines this model is that of the other properties"
  },
  {
   "property": "C161",
   "status": "partial",
   "theorems": [
    "C161_refuted",
    "C161_partial",
    "C161_actual"
   ],
   "note": "C161_partial: without carriage returns; C161_refuted: one event with CR LF; C161_actual: both numbers"
  },
  {
   "property": "C162",
   "status": "partial",
   "theorems": [
    "C162_refuted",
    "C162_partial",
    "C162_actual"
   ],
   "note": "C162_partial: in memory; C162_refuted: a comment before two events; C162_actual: any foreign character ends a stream in an exception"
  },
  {
   "property": "C163",
   "status": "partial",
   "theorems": [
    "C163_refuted",
    "C163_partial",
    "C163_actual",
    "C163_int"
   ],
   "note": "C163_partial: foreign characters; C163_refuted: 17 digits; C163_actual: what is read; C163_int: what int(s, 16) accepts"
  },
  {
   "property": "C164",
   "status": "partial",
   "theorems": [
    "C164_refuted",
    "C164_partial",
    "C164_actual",
    "C164_main"
   ],
   "note": "C164_partial: absolute names; C164_refuted: -i a; C164_actual: as if called in the directory of the package; C164_main: relation to the runs of C101 to C104"
  },
  {
   "property": "C165",
   "status": "partial",
   "theorems": [
    "C165_refuted",
    "C165_partial",
    "C165_actual"
   ],
   "note": "C165_partial: absolute names or the directory of the package; C165_refuted and C165_actual: relative names from elsewhere"
  },
  {
   "property": "C166",
   "status": "partial",
   "theorems": [
    "C166_refuted",
    "C166_partial",
    "C166_actual"
   ],
   "note": "C166_partial: if the program can be compiled; C166_refuted and C166_actual: if it cannot"
  },
  {
   "property": "C167",
   "status": "proved",
   "theorems": [
    "C167"
   ],
   "note": "boiler's parser is taken to be configargparse's and parse_args_or_help to do what fpfind.py 543-551 does"
  },
  {
   "property": "C168",
   "status": "proved",
   "theorems": [
    "C168",
    "C168_epochs"
   ],
   "note": "C91 from the command line; C168_epochs for directories"
  },
  {
   "property": "C169",
   "status": "partial",
   "theorems": [
    "C169_refuted",
    "C169_partial",
    "C169_equals_partial"
   ],
   "note": "C169_partial, C169_equals_partial: accepted exactly when not beginning with a dash, or without exponent and not ending with the point; C169_refuted: --freq -1e-6"
  },
  {
   "property": "C170",
   "status": "proved",
   "theorems": [
    "C170"
   ],
   "note": "exit code 2, whatever the files"
  },
  {
   "property": "C171",
   "status": "proved",
   "theorems": [
    "C171"
   ],
   "note": "C125 with fpplot's command line"
  },
  {
   "property": "C172",
   "status": "proved",
   "theorems": [
    "C172"
   ],
   "note": "options with one value or none"
  },
  {
   "property": "C173",
   "status": "proved",
   "theorems": [
    "C173",
    "C173_other"
   ],
   "note": "C173_other: other texts, argparse's own filling is a parameter"
  },
  {
   "property": "C174",
   "status": "partial",
   "theorems": [
    "C174_refuted",
    "C174_partial"
   ],
   "note": "C174_partial: options; C174_refuted: positional arguments"
  },
  {
   "property": "C175",
   "status": "proved",
   "theorems": [
    "C175",
    "C175_none",
    "C175_error"
   ],
   "note": "C175_none, C175_error: when there is no number; exact arithmetic, as for C71"
  },
  {
   "property": "C176",
   "status": "proved",
   "theorems": [
    "C176",
    "C176_empty"
   ],
   "note": "C176_empty: no background"
  },
  {
   "property": "C177",
   "status": "proved",
   "theorems": [
    "C177",
    "C177_order"
   ],
   "note": "C177_order: order of dates; local time taken as exact"
  },
  {
   "property": "C178",
   "status": "partial",
   "theorems": [
    "C178_refuted",
    "C178_partial"
   ],
   "note": "C178_refuted; C178_partial: one or two epochs early unless the epoch starts at (or within a microsecond before) a whole second"
  },
  {
   "property": "C179",
   "status": "proved",
   "theorems": [
    "C179",
    "C179_none"
   ],
   "note": "C179_none: nothing obtained above; tree of loggers as in Python's logging"
  },
  {
   "property": "C180",
   "status": "proved",
   "theorems": [
    "C180"
   ],
   "note": ""
  },
  {
   "property": "C181",
   "status": "partial",
   "theorems": [
    "C181_refuted",
    "C181_partial"
   ],
   "note": "C181_refuted: type 1; C181_partial: the other types"
  },
  {
   "property": "C182",
   "status": "partial",
   "theorems": [
    "C182_refuted",
    "C182_partial",
    "C182_exact"
   ],
   "note": "C182_refuted: a file without entries; C182_partial: files with entries, none of the last word zero; C182_exact: exactly the others fail"
  },
  {
   "property": "C183",
   "status": "proved",
   "theorems": [
    "C183"
   ],
   "note": ""
  },
  {
   "property": "C184",
   "status": "proved",
   "theorems": [
    "C184"
   ],
   "note": ""
  },
  {
   "property": "C185",
   "status": "partial",
   "theorems": [
    "C185_refuted",
    "C185_partial"
   ],
   "note": "C185_refuted: two events 128 ps apart in epoch ffffffff; C185_partial: 33 units of 4 ps there, as stated in all other settings"
  },
  {
   "property": "C186",
   "status": "proved",
   "theorems": [
    "C186"
   ],
   "note": "C186_long: a line of 99 characters is lost"
  },
  {
   "property": "C187",
   "status": "partial",
   "theorems": [
    "C187_refuted",
    "C187_actual"
   ],
   "note": "C187_refuted: test case 2; C187_actual: moved by the same amount as the last event before. Nothing of the property holds unless that is 0."
  },
  {
   "property": "C188",
   "status": "proved",
   "theorems": [
    "C188"
   ],
   "note": "C184 with -F"
  },
  {
   "property": "C189",
   "status": "proved",
   "theorems": [
    "C189",
    "C189_one"
   ],
   "note": "numpy broadcasting of an in-place sum is part of the model"
  },
  {
   "property": "C190",
   "status": "proved",
   "theorems": [
    "C190"
   ],
   "note": "every word that is no whole number for Python's int()"
  },
  {
   "property": "C191",
   "status": "proved",
   "theorems": [
    "C191"
   ],
   "note": "extends C188 to frequency files longer than the buffer; a last line without newline and lines of 99 characters or more are excluded here (C186_long shows such a line lost)"
  },
  {
   "property": "C192",
   "status": "proved",
   "theorems": [
    "C192"
   ],
   "note": "no restriction on the length of lines or on the end of the file; C191 states the same for well-formed files in terms of the file's own lines"
  },
  {
   "property": "C193",
   "status": "proved",
   "theorems": [
    "C193",
    "C193_plot",
    "C193_timestamps"
   ],
   "note": "C193 is fpfind, C193_plot fpplot, C193_timestamps parse_timestamps; texts of ASCII characters"
  },
  {
   "property": "C194",
   "status": "proved",
   "theorems": [
    "C194",
    "C194_top"
   ],
   "note": "C194_top is the part on get_top_k_delays_fft; what it returns otherwise is C70"
  },
  {
   "property": "C195",
   "status": "proved",
   "theorems": [
    "C195",
    "C195_one"
   ],
   "note": "C195_one says the values are unique"
  },
  {
   "property": "C196",
   "status": "partial",
   "theorems": [
    "C196_refuted",
    "C196_partial",
    "C196_decimal_partial"
   ],
   "note": "C196_refuted: -f -2147483648 passes the range check, and on two events 2^45 units apart the product in line 361 overflows. C196_partial: it is the only exception; C196_decimal_partial: with -d there is none below 1250000000; for numbers in frequency files see C195."
  },
  {
   "property": "C197",
   "status": "partial",
   "theorems": [
    "C197_refuted",
    "C197_actual",
    "C197_one"
   ],
   "note": "C197_refuted: -f 12abc is -f 12. C197_actual: exactly the words which do not begin with a number are refused; of the others the number at the beginning counts, clamped to 64 bits and cut to 32 (C197_one: it is unique)."
  },
  {
   "property": "C198",
   "status": "partial",
   "theorems": [
    "C198_refuted",
    "C198_actual",
    "C198_all"
   ],
   "note": "C198_refuted: freqcd -z runs. C198_actual: unknown letters, and a last option without its value, are ignored, and a dash among the letters of a word ends the options; the run is the one of a regular command line. C198_all: every command line is covered."
  },
  {
   "property": "C199",
   "status": "partial",
   "theorems": [
    "C199_refuted",
    "C199_actual",
    "C199_blank"
   ],
   "note": "C199_refuted: names with blanks. C199_actual: the run is the one with every name cut to its first word. C199_blank: values without a word are refused with the exit code of the option."
  },
  {
   "property": "C200",
   "status": "proved",
   "theorems": [
    "C200",
    "C200_all"
   ],
   "note": "C200_all: every text is covered; C133 is the case of plain numbers"
  },
  {
   "property": "C201",
   "status": "proved",
   "theorems": [
    "C201",
    "C201_refused",
    "C201_all"
   ],
   "note": "C201_refused: a word which is no number; C201_all: there is no third case. The legacy order asked for with -x is ignored, see C130"
  },
  {
   "property": "C202",
   "status": "proved",
   "theorems": [
    "C202",
    "C202_plot",
    "C202_timestamps",
    "C202_whole",
    "C202_plain"
   ],
   "note": "C202 is fpfind, C202_plot fpplot, C202_timestamps parse_timestamps; C202_whole and C202_plain: every number has a plain form. Python's limit of 4300 digits is not modelled"
  },
  {
   "property": "C203",
   "status": "partial",
   "theorems": [
    "C203_refuted",
    "C203_actual",
    "C203_file"
   ],
   "note": "false: the times are printed to standard output and the file after -o is emptied (C203_refuted, C203_actual); C203_file: the same with an input file, which standard input replaces as in C132"
  },
  {
   "property": "C204",
   "status": "proved",
   "theorems": [
    "C204"
   ],
   "note": "composes the command line of the generator (C201) with that of parse_timestamps (C119); the second run starts from the files the first one left"
  },
  {
   "property": "C205",
   "status": "partial",
   "theorems": [
    "C205_refuted",
    "C205_partial",
    "C205_actual",
    "C205_only"
   ],
   "note": "C205_refuted: -x in both. C205_partial: true if the reader has no -x. C205_actual: with -x the reader exchanges halves the writer has not exchanged; C205_only: the 2^22 times for which this makes no difference"
  },
  {
   "property": "C206",
   "status": "partial",
   "theorems": [
    "C206_refuted",
    "C206_partial",
    "C206_actual"
   ],
   "note": "C206_refuted: -x and -X (the generator's -x has no effect, C64). C206_partial: true without -X. C206_actual: the times and patterns read with -X"
  },
  {
   "property": "C207",
   "status": "proved",
   "theorems": [
    "C207"
   ],
   "note": "composes C201, C184 and C131; C134 has the error bound. As there, freqcd reads full blocks of 1024 events from standard input as from a file"
  },
  {
   "property": "C208",
   "status": "partial",
   "theorems": [
    "C208_refuted",
    "C208_actual",
    "C208_file"
   ],
   "note": "C208_refuted: the two lines shown at the start go to standard output too. C208_actual: the reader always fails with exit code 1 (79 bytes are 7 modulo 8). C208_file: true through a file after -o, as a comment in the script advises"
  },
  {
   "property": "C209",
   "status": "proved",
   "theorems": [
    "C209"
   ],
   "note": "C201, C184 and C119 in one"
  },
  {
   "property": "C210",
   "status": "proved",
   "theorems": [
    "C210"
   ],
   "note": "the generator's own -x has no effect (C64, C205, C206); this is a way around it"
  }
 ]
}