n("C01","proved","C01 for every run (any arithmetic mode): chunks received are those delivered, output events are the groups of the received bytes with new times. C01_exact: in strict mode the times are exactly the specified ones with the corrections in force.")
n("C02","proved","C02: no OutOfBounds. C02_total: with wrapping arithmetic and defined stack contents the loop never traps.")
n("C03","proved","Event by event; at a running state the counts agree and no torn event was written.")
n("C04","proved","Includes totality (no overflow, no uninitialised read).")
n("C05","partial","Proved when the first read brings a complete event; C05_refuted shows the statement without that proviso is false (tscorr is read uninitialised).")
n("C06","proved","Batch i (counted from 0) is within 3(i+1)/2 units.")
n("C07","proved","Order of the unwrapped corrected times; the written 54-bit times are these modulo 2^54.")
n("C08","partial","C08_refuted: different splits give different bytes. C08_partial: times differ by less than 3(n1+n2)/2.")
n("C09","partial","C09_refuted: a short read re-adds the last correction. C09_partial gives the exact effect.")
n("C10","proved","Runs with equal read sizes and equal frequency reads.")
n("C11","partial","C11_refuted: reads without newline are dropped. C11_partial: true when every frequency read has a newline; C11_actual: exact rule for all streams and splits.")
n("C12","partial","C12_refuted: -2147483648 is accepted. C12_partial: it is the only exception.")
n("C13","partial","C13_refuted: 4294967301 is read as 5. C13_partial: true for NUL-free lines whose number fits an int; C11_actual: exact rule.")
n("C17","proved","Prefix at every stop: C01, C01_exact (prefix clauses) and C17 (longer runs only append).")
n("C18","partial","C18_refuted; C18_partial gives the exact error f*(2^30-2^20).")
n("C14","partial","C14_refuted: -f -2147483648 and -d with |n|>=1250000000 are accepted. C14_partial: as documented otherwise. C14_actual: exact rule for every int.")
n("C15","proved","Every spelling of the documented options with usable arguments; C15_same compares two spellings; C15_total: the option loop always ends.")
n("C16","partial","C16_refuted: a 200-character name writes 201 bytes. C16_partial: safe when no word has 200 consecutive non-blank characters; C16_extent: at most one byte over.")
n("C19","proved","Times in any dtype and any of the three resolutions, np_float of at least 54 bits.")
n("C20","partial","C20_refuted. C20_partial: round trip for >= 2 events on one side of 2^53, TypeError otherwise.")
n("C21","partial","C21_refuted. C21_partial: what is read is float64(t); equal to t when t <= 2^53 or even; an empty file raises TypeError.")
n("C22","proved","C22 for _format_timestamps on every 54-bit time; C22_read through each reader (a0 only where float64 holds the time, see C21).")
n("C23","partial","C23_refuted: the in-memory text readers raise on files the streaming ones read. C23_partial: they agree wherever the in-memory reader succeeds.")
n("C24","proved","Equal results, and failure exactly together.")
n("C25","proved","Any partition into batches, empty ones included. C25_same compares with print_statistics; C25_raw gives the reported time for raw data.")
n("C26","proved","Exact-match modes for any integers.")
n("C27","partial","C27_refuted for uint64 times from 2^53 on. C27_partial: otherwise exact for bounds rounded to float64. C27_actual: every sorted array.")
n("C28","proved","Any dtype, any filter arguments.")
n("C29","partial","C29_refuted (C29_lost_time: time 2^54-1 in an a0 file becomes 0). C29_partial (streaming) and C29_memory_partial (--inmemory) give the exact conditions under which conversion is lossless.")
n("C30","partial","C30_refuted: read_a1 ignores 1-3 extra bytes. C30_partial: exact behaviour of read_a1; C30_stream: sread_a1 rejects every incomplete file.")
n("C31","proved","Python-int timestamps (see C67 for arrays); the one event word that is zero is excluded, C31_zero says what it does.")
n("C32","proved","PS4 gives Python ints, the other resolutions uint64 without overflow.")
n("C33","proved","Error at most 16 units of 4 ps, none below 2^64 units; order kept.")
n("C34","partial","C34_refuted: a cut inside the last event goes unnoticed. C34_partial: exact result for every cut.")
n("C35","proved","Widths 0..32, any byte file, zeros after its end; C35_buffer for use without a file.")
n("C36","proved","Every timeorder 1..32, basebits 0..32, short and extended entries, anything after the terminator; times below 2^53 units.")
n("C37","partial","C37_refuted: a file without terminator loops for ever. C37_T2/T4_partial and _loops: they end exactly when a terminator is present, with a bound on the passes.")
n("C38","partial","C38_refuted and C38_PS4: integer PS4 results raise TypeError for every non-empty file. C38_partial: exact in all other settings.")
n("C39","proved","Sums of d-2 as the filespec says.")
n("C40","proved","Every file: C40 and the three error cases. qber within 0.0005 + 2^-52 of the error fraction. An empty T3 file triggers the size message.")
n("C41","proved","All n >= 0. C41_write: no header warning from any directory path without further slashes in the name.")
n("C42","partial","C42_refuted: s = 2^20 gives the epoch before. C42_partial: right unless s is a multiple of 2^20, and then at most one less.")
n("C43","proved","Any directories of hexadecimal names (padded or upper-case too).")
n("C44","partial","C44_refuted: times restart every 2^17 epochs. C44_partial: in order within a 2^17 block; C44_concat and C44_missing for every directory.")
n("C67","partial","C67_refuted. C67_partial: int64 arrays work when bit 16 of the epoch is clear, otherwise struct.error; uint64 arrays raise TypeError. C67_left: the remains are rejected by read_T1.")
n("C68","proved","Exact result for every byte string.")
n("C45","proved","Exact for device timestamps; C45_rounded for arbitrary values in any precision (the selection is exact, differences rounded); C45_separate for preserve_relative=False.")
n("C46","proved","Device timestamps; C46_exact whenever the subtractions are exact; C46_rounded in general, with the IndexError for an empty selection.")
n("C47","proved","Any element type.")
n("C48","proved","Exact floor division, as numpy computes it for quotients below 2^51.")
n("C49","proved","For any computed correlation less than 1/2 off per bin; C49_exact: the exact one qualifies. The FFT itself is not modelled.")
n("C50","proved","First maximum at ties.")
n("C51","partial","C51_refuted: a float center raises TypeError (C51_float). C51_partial: no center given; C51_center_partial: int center; C51_flat: with exact mean and deviation.")
n("C52","proved","C52_odd: with an odd number of bins one time is missing.")
n("C69","proved","From events to the delay; the correlation is any one less than 1/2 off per bin.")
n("C70","proved","For every possible result of argpartition and argsort; C70_one for k = 1.")
n("C71","proved","Exact mean, variance and square root; rounding of float64 is not modelled here.")
n("C72","partial","C72_refuted; C72_never, C72_exact: np.hstack is called with two arguments, so no number is ever returned, None for a constant background, TypeError otherwise. Nothing of the property holds.")
n("C53","proved","Exact arithmetic; the corrections are those found from the target times of each iteration. C53_fpfind includes the precompensation.")
n("C54","proved","Any rounding and correlation.")
n("C55","proved","Float64 scalars (C55), exact arithmetic (C55_exact), with a number of iterations (C55_count, C55_reduction); C55_sharp: at the limit itself the loop may never end.")
n("C56","proved","For any search; C56_fpfind instantiates it.")
n("C57","partial","C57_refuted; C57_never: with fullscan the for-else always raises. Nothing of the property holds.")
n("C58","partial","C58_refuted: IndexError on data shorter than the separation. C58_partial: no other exception but ValueError and IndexError; C58_enough_partial: only ValueError when the data reach far enough; C58_scan_partial for the scan.")
n("C59","proved","Any rounding of the values; C59_ordered, C59_zero.")
n("C60","partial","C60_refuted. C60_partial: the exact remaining offset; C60_only_partial: right exactly when dt or df is 0; C60_other_partial: the formula fits corrections that scale before they shift.")
n("C61","partial","C61_refuted by a run whose output freqcd refuses, C61_refused the same inverted. C61_partial, C61_inverted_partial: accepted, with the right value, away from the limit. Composed with freqcd's command line model.")
n("C62","proved","Every flag value and rounding; C62_unique: the digits determine the number.")
n("C73","partial","C73_refuted: two of the four examples differ. C73_partial: the actual lists.")

n("C63","proved","Also refusals (C63_refused) and the whole -t output read back (C63_read).")
n("C64","partial","C64_refuted; C64_actual: with and without -x the events are in the new order. Nothing of the property holds.")
n("C65","partial","C65_refuted; C65_overwritten: any file named is overwritten with standard input. C65_partial: the times printed are those of standard input, right for '-'.")
n("C66","proved","C66 and monotonicity.")
n("C74","proved","The base class's message is a parameter; C74_plain for the other format.")
n("C75","partial","C75_refuted: the last stamp is never discarded. C75_actual: what is counted; C75_partial: right if the last stamp is near all events.")
n("C76","partial","C76_refuted; C76_never: always an exception, and C76_arrays: the arrays are shifted before it. Nothing of the property holds.")
n("C77","proved","Exact arithmetic.")
n("C78","proved","C78_total: every text splits into pieces.")
n("C79","proved","Float64 rounding included in C79.")
n("C80","proved","Through reading the files, normalisation and the whole search, in the formats of the program (longdouble of 63 bits or more).")
n("C81","proved","For searches that end in the first iteration (target resolution = initial resolution).")
n("C82","partial","C82_refuted: one event, or equal first and last times: int(inf) raises OverflowError after the duration. C82_partial: exactly then, with any filters; C82_file for a file, in float64.")
n("C83","proved","C83_all with any filters. np.log10 is a parameter assumed right to its whole part.")
n("C84","proved","Streaming (float64) and in memory (longdouble).")
n("C85","proved","numpy's floor division taken as exact.")
n("C86","proved","From the option text to the bytes written; C81 and C88 give the 2^-51.")
n("C87","proved","That the peaks found are genuine is a hypothesis (C69, C70 and C81 give it for shifted events). C87_rounding: float64 and exact arithmetic as cases. C87_limit: the error in closed form.")
n("C88","proved","For searches that end in the first iteration, without precompensation; C87 is about several iterations.")
n("C89","proved","C86 and C88 composed.")
n("C90","proved","For events a timestamp device can record (54-bit times, 4 detectors); C90_offsets is C88 for directories.")
n("C91","proved","Up to the call of S15lib's histogram, which is not modelled.")
n("C92","proved","The whole script. The hypothesis bounds detuned times by 2^54 - 8.")
n("C93","proved","C93 for any correction, C93_accurate for a constant one, C93_fpfind with fpfind's number.")
n("C94","proved","Composition of C92 and C93_fpfind; c4e3.dat (1e-3) is beyond freqcd's limit of 2^-13.")
n("C95","proved","Scalars and timestamps in exact arithmetic; the correlation with an error of at most e. Significance decides only k and is left open. C95_fpfind: with precompensation. C95_exact: e = 0 for exact transforms.")
n("C96","partial","C96_refuted: after k merges the early delay is taken modulo num_bins * res, the late one modulo 2^k times that, so a delay between gives a frequency offset of a multiple of num_bins * res / separation. C96_partial: exactly the delays within the early range are found with 0. C96_actual: what is returned in all cases.")
n("C97","proved","Over Coq's real numbers (standard library axioms sig_not_dec, sig_forall_dec, functional_extensionality_dep). C97_exact: the correlation used by the model of the search. C97_odd: odd lengths. Floating-point errors of the transforms are a parameter (near_correlation, accurate_to).")
n("C98","proved","From C95 and the error recursion of C87; exact scalars (u = 0). The condition is on pairs of events of the data only, no histogram or transform. C98_fpfind: with precompensation. C98_case: a run of two iterations meeting the condition.")
n("C99","proved","C98 with rounding. C99_rounding: float64 meets the hypotheses. The jitter j has to include what the rounding of the target times moved them. C99_case: the run of C98 in float64/longdouble arithmetic.")
n("C100","proved","The whole program from the argument vector to the file system, for regular files: reads of 8192 bytes, so batches of 1024 events. Also: it ends (fuel), no trap.")
n("C101","partial","C101_refuted: in each turn of the loop the input is read before the frequency file, so the first 1024 events get the value of -f. C101_actual: these are accurate for f; of later ones the time since event 1023 is accurate for the file's g.")
n("C102","proved","Any memory contents, trapping or wrapping arithmetic.")
n("C103","partial","C103_refuted, C103_actual: -i and -o naming the same file empties it, exit code 0. C103_partial: every file other than the output is unchanged.")
n("C104","partial","C104_refuted: the output is emptied before a missing -F file is noticed (exit code -11). C104_partial: this is the only case, and only the output file. C104_missing: the exit codes for missing files.")
n("C105","proved","C99 for main on two timestamp files (-t, -T), skip duration 0. The bounds are C99's plus the rounding of the last steps of fpfind. That a line is printed is a hypothesis: the significance of the peaks is not implied by the signal.")
n("C106","proved","C105 composed with C100. C106_case: events 2^29 ns apart in the reference are so in the file written by freqcd, up to 1 ns.")
n("C107","proved","C105 and C106 with any list of precompensations, C107_freqcd for the stream corrected by freqcd. Without -P the list is [0]. fullscan is off (C57: with it fpfind always raises).")
n("C108","proved","The general form of tests/freqcd/test_freqcd.py. C108_case is its input.")
n("C109","proved","C109_case: 1000000 and -999942 units. The comment in generate_freqcd_testcase.py uses -999933 as inverse, which is 9 units off the nearest; C109 holds for it without the restored part.")
n("C110","partial","C110_refuted: a run in which both searches are right to 2 ns and 10^-9 and the sum is 254 ns. C110_partial: the frequencies as stated; t1 (1 + f2) + t2 = 0, with the frequency of the other side; the tests' sum is D F (1 + 1 / (1 + F)), about 2 D F. The same formula is in main's inverted output (C60).")
n("C111","proved","C99 and C110 say what is returned if something is; this says that something is. within_reach and significant quantify over the states of the search, as stand_out does; ExistCheck decides them for concrete recordings.")
n("C112","proved","With C106 freqcd then brings the target in step.")
n("C113","proved","argparse is modelled from Python 3.8-3.11 (ArgModel.v), compared with the library on random command lines (tools/argparse_check.py).")
n("C114","proved","C112 through the command line.")
n("C115","proved","")
n("C116","partial","C116_refuted, C116_partial: there is no option -n, the command line is always refused with exit code 2.")
n("C117","partial","C117_refuted: --precomp-start -1e-6 is refused. C117_partial: accepted exactly if the number does not begin with a dash, or has no exponent and does not end with the point.")
n("C118","proved","C118_nothing, C118_no_file, C118_format: the refused command lines. Streaming onto the input itself is C120. argparse compared with the library on random command lines (tools/argparse_check2.py).")
n("C119","proved","C29 from the command line.")
n("C120","partial","C120_refuted, C120_actual: without --inmemory the output is emptied before the input is read; the file is empty afterwards, exit code 0. C120_partial: with --inmemory.")
n("C121","partial","C121_refuted, C121_actual: options between the two file names are refused with exit code 2 (argparse gives the optional output name to nobody when it meets the option). C121_partial: everywhere else.")
n("C122","proved","C119 twice.")
n("C123","proved","C113 with C111. The times to be skipped are multiples of 1/256 ns after float64 rounding (whole seconds, for instance).")
n("C124","proved","C113 with C90 and C111.")
n("C125","proved","C123 with C91. fpplot from the option values (its parser is another package's).")
n("C126","proved","An event of 64 zero bits, which ends a T1 file, is excluded.")
n("C127","partial","C127_refuted: the last 64 ps before the recording's clock starts anew may be rounded up to the next turn, and come out as 0 after the modulo. C127_partial: everywhere else. C127_integers: the integers, always.")
n("C128","proved","C118 with C82 - C85. C128_readme: the README's command line.")
n("C129","proved","C100 with the correction rounded to units of 2^-34. C129_readme: the README's command line.")
n("C130","partial","C130_refuted: -x sets a local variable, the words are in the new order. C130_partial: without -x. C130_actual: what happens with and without it, and at negative times.")
n("C131","proved","without -o and -t; 54 bits of precision of the float type or more")
n("C132","partial","C132_refuted: the first line prints the help and exits with 1 (C132_actual), the second replaces the file with standard input (C132_overwritten).")
n("C133","proved","the exit code is 1 because EOFError is not caught; Ctrl-C is not modelled")
n("C134","proved","C130, C108 and C131 in one; C134_twice: the second example of the script's header.")
n("C135","proved","-Z and epoch directories are C123 and C113")
n("C136","proved","frequency differences up to 2^-13, the limit of freqcd's correction in these units; without precompensation the list of frequencies is the single 0")
n("C137","proved","Over Coq's real numbers (standard library axioms sig_not_dec, sig_forall_dec, functional_extensionality_dep). C137_accurate: the resulting bound for all histograms with at most a and b events, the hypothesis of the theorems about the search. That scipy's transforms have such errors is not proved.")
n("C138","proved","C123 with the transforms of C137; axioms as for C137")
n("C139","proved","C111 with its conditions on the states of the search derived from the recordings; significant is left, a condition on the first correlation only")
n("C140","proved","C123 with the conditions of C139")
n("C141","partial","proved when what can be left after an iteration is less than ten times what has been found (steady); refuted without: 20000 ns late and 2^-17 fast, the first iteration at 1024 ns finds 20480 ns and no frequency offset, the second is taken for spurious (fpfind.py 245-265), and fpfind returns 20480 ns and 0 without an error")
n("C142","proved","C140 with steady, a condition on the parameters and the clock relation")
n("C143","proved","lines 245-265; the bound 10.01 instead of 10 leaves room for rounding; that nothing less than 9.99 times ends the search is part of ended in C81 and the theorems after it")
n("C144","partial","C144_refuted: --precomp-start=-1e-6 is refused too, configargparse splits the word before argparse sees it. C144_partial: accepted exactly if the number would be accepted as a word of its own (C117).")
n("C145","proved","prominent (PromSpec.v) replaces significant of C141; the standard score is assumed to be computed to one part in a thousand (fair_zs, proved for the exact one and, in C147, for doubles)")
n("C146","proved","C145 through main, as C142")
n("C147","proved","score_of leaves the order of the additions open; in_doubles gives good_zs and fair_zs, so that C145 and C146 hold for scores in doubles")
n("C148","partial","C148_partial: integers of at most 2^53 in total; C148_refuted: three bins of 0.1")
n("C149","partial","C149_partial: values not beginning with a dash, and negative numbers; C149_refuted: -1e3; C149_actual: exit code 2 for all such values; C149_flags: = after an option without a value")
n("C150","partial","C150_partial: any number of figures but 16; C150_refuted: 16 figures of the float64 after 10^23")
n("C151","partial","C151_partial: up to 2^53; C151_close: error of all below 10^307; C151_refuted: 10^23 with 3 figures; C151_overflow: 2^1024")
n("C152","partial","C152_partial: whole numbers and calls without sf; C152_refuted: a str for every float with sf")
n("C153","proved","C153; C153_outcome: the outcomes are those of the search")
n("C154","proved","C154")
n("C155","partial","C155_partial: the other three messages; C155_refuted: 5.196 shown with 16384 ns, where it is 5; C155_actual: always half the resolution shown")
n("C156","partial","C156_partial: fpfind's own records, and nothing else; C156_refuted: a warning of parse_epochs; C156_stderr: what standard error has")
n("C157","partial","C157_partial: logging is not blocked; C157_refuted: an error appears; C157_actual: the option makes no difference")
n("C158","partial","C158_partial: once, level of the last call, form of the first; C158_refuted: two calls with different forms")
n("C159","proved","Over Coq's real numbers (standard library axioms sig_not_dec, sig_forall_dec, functional_extensionality_dep).")
n("C160","proved","C160_plain: on digits and newlines this model is that of the other properties")
n("C161","partial","C161_partial: without carriage returns; C161_refuted: one event with CR LF; C161_actual: both numbers")
n("C162","partial","C162_partial: in memory; C162_refuted: a comment before two events; C162_actual: any foreign character ends a stream in an exception")
n("C163","partial","C163_partial: foreign characters; C163_refuted: 17 digits; C163_actual: what is read; C163_int: what int(s, 16) accepts")
n("C164","partial","C164_partial: absolute names; C164_refuted: -i a; C164_actual: as if called in the directory of the package; C164_main: relation to the runs of C101 to C104")
n("C165","partial","C165_partial: absolute names or the directory of the package; C165_refuted and C165_actual: relative names from elsewhere")
n("C166","partial","C166_partial: if the program can be compiled; C166_refuted and C166_actual: if it cannot")
n("C167","proved","boiler's parser is taken to be configargparse's and parse_args_or_help to do what fpfind.py 543-551 does")
n("C168","proved","C91 from the command line; C168_epochs for directories")
n("C169","partial","C169_partial, C169_equals_partial: accepted exactly when not beginning with a dash, or without exponent and not ending with the point; C169_refuted: --freq -1e-6")
n("C170","proved","exit code 2, whatever the files")
n("C171","proved","C125 with fpplot's command line")
n("C172","proved","options with one value or none")
n("C173","proved","C173_other: other texts, argparse's own filling is a parameter")
n("C174","partial","C174_partial: options; C174_refuted: positional arguments")
n("C175","proved","C175_none, C175_error: when there is no number; exact arithmetic, as for C71")
n("C176","proved","C176_empty: no background")
n("C177","proved","C177_order: order of dates; local time taken as exact")
n("C178","partial","C178_refuted; C178_partial: one or two epochs early unless the epoch starts at (or within a microsecond before) a whole second")
n("C179","proved","C179_none: nothing obtained above; tree of loggers as in Python's logging")
n("C180","proved","")
n("C181","partial","C181_refuted: type 1; C181_partial: the other types")
n("C182","partial","C182_refuted: a file without entries; C182_partial: files with entries, none of the last word zero; C182_exact: exactly the others fail")
n("C183","proved","")
n("C184","proved","")
n("C185","partial","C185_refuted: two events 128 ps apart in epoch ffffffff; C185_partial: 33 units of 4 ps there, as stated in all other settings")
n("C186","proved","C186_long: a line of 99 characters is lost")
n("C187","partial","C187_refuted: test case 2; C187_actual: moved by the same amount as the last event before. Nothing of the property holds unless that is 0.")
n("C188","proved","C184 with -F")
n("C189","proved","numpy broadcasting of an in-place sum is part of the model")
n("C190","proved","every word that is no whole number for Python's int()")
n("C191","proved","extends C188 to frequency files longer than the buffer; a last line without newline and lines of 99 characters or more are excluded here (C186_long shows such a line lost)")
n("C192","proved","no restriction on the length of lines or on the end of the file; C191 states the same for well-formed files in terms of the file's own lines")
n("C193","proved","C193 is fpfind, C193_plot fpplot, C193_timestamps parse_timestamps; texts of ASCII characters")
n("C194","proved","C194_top is the part on get_top_k_delays_fft; what it returns otherwise is C70")
n("C195","proved","C195_one says the values are unique")
n("C196","partial","C196_refuted: -f -2147483648 passes the range check, and on two events 2^45 units apart the product in line 361 overflows. C196_partial: it is the only exception; C196_decimal_partial: with -d there is none below 1250000000; for numbers in frequency files see C195.")
n("C197","partial","C197_refuted: -f 12abc is -f 12. C197_actual: exactly the words which do not begin with a number are refused; of the others the number at the beginning counts, clamped to 64 bits and cut to 32 (C197_one: it is unique).")
n("C198","partial","C198_refuted: freqcd -z runs. C198_actual: unknown letters, and a last option without its value, are ignored, and a dash among the letters of a word ends the options; the run is the one of a regular command line. C198_all: every command line is covered.")
n("C199","partial","C199_refuted: names with blanks. C199_actual: the run is the one with every name cut to its first word. C199_blank: values without a word are refused with the exit code of the option.")
n("C200","proved","C200_all: every text is covered; C133 is the case of plain numbers")
n("C201","proved","C201_refused: a word which is no number; C201_all: there is no third case. The legacy order asked for with -x is ignored, see C130")
n("C202","proved","C202 is fpfind, C202_plot fpplot, C202_timestamps parse_timestamps; C202_whole and C202_plain: every number has a plain form. Python's limit of 4300 digits is not modelled")
n("C203","partial","false: the times are printed to standard output and the file after -o is emptied (C203_refuted, C203_actual); C203_file: the same with an input file, which standard input replaces as in C132")
n("C204","proved","composes the command line of the generator (C201) with that of parse_timestamps (C119); the second run starts from the files the first one left")
n("C205","partial","C205_refuted: -x in both. C205_partial: true if the reader has no -x. C205_actual: with -x the reader exchanges halves the writer has not exchanged; C205_only: the 2^22 times for which this makes no difference")
n("C206","partial","C206_refuted: -x and -X (the generator's -x has no effect, C64). C206_partial: true without -X. C206_actual: the times and patterns read with -X")
n("C207","proved","composes C201, C184 and C131; C134 has the error bound. As there, freqcd reads full blocks of 1024 events from standard input as from a file")
n("C208","partial","C208_refuted: the two lines shown at the start go to standard output too. C208_actual: the reader always fails with exit code 1 (79 bytes are 7 modulo 8). C208_file: true through a file after -o, as a comment in the script advises")
n("C209","proved","C201, C184 and C119 in one")
n("C210","proved","the generator's own -x has no effect (C64, C205, C206); this is a way around it")
