# Formal model of franciumxzf/fpfind in Rocq (Coq 8.16.1)

## Layout (rocq/theories)

| file | contents |
|------|----------|
| `Base.v` | Python-like results/exceptions, list helpers, little-endian bytes, machine integers |
| `Float.v` | rounding to p significant bits (nearest, ties to even) on exact rationals: p=53 `float64`, p=64 x87 `float128` |
| `Freqcd*.v` | `freqcd.c` main loop: buffers, framing, arithmetic, frequency stream |
| `FreqcdCli*.v` | `freqcd.c` command line and `lib/getopt.c` |
| `Timestamps*.v` | `lib/parse_timestamps.py` |
| `Epochs*.v` | `lib/parse_epochs.py`, directory functions of `lib/utils.py` |
| `Utils*.v` | numerical functions of `lib/utils.py` |
| `Fpfind*.v` | `fpfind.py`: search, precompensation, output; `FpfindPipe.v`: its output given to freqcd |
| `Report*.v` | the statistics report of `parse_timestamps.py`, as printed |
| `Main*.v` | `fpfind.py` `main`, from the contents of the files to the line printed |
| `Misc*.v` | `generate_freqcd_testcase.py`, `logging.py`, `g2_two_timestamps.py`, `generate_freqdetuneg2.py`, `fpplot.py`, rest of `utils.py` |
| `Pipe*.v` | `fpfind.py` output applied by `freqcd.c` |
| `End*.v` | two timestamp files through `fpfind.py` to the stream corrected by `freqcd.c` |
| `EpochRun*.v` | epoch directories through `fpfind.py` |
| `Plot*.v` | `fpplot.py` `main` |
| `CdFile*.v` | `freqcd.c` on the contents of a1 files |
| `CdRun*.v` | whole runs of `freqcd.c`: argument vector and file system to file system |
| `Whole*.v` | fpfind and freqcd on files whose coincidences stand out (C105, C106) |
| `Chain*.v` | the test generator, freqcd and a second freqcd in a chain (C108, C109) |
| `Swap*.v` | the search with reference and target exchanged (C110), a decision procedure for the signal condition |
| `ArgModel.v` | argparse: classification of words, grouped letters, abbreviations, positionals; int() and float() of texts |
| `FpCli*.v` | fpfind from the argument vector to exit code and standard output (C113-C117, C144) |
| `CliSpec.v`, `CliProofs.v` | spellings of requests for any option table, and that argparse reads them |
| `TsCli*.v` | parse_timestamps from the argument vector to exit code, standard output and files (C118-C122) |
| `Readme*.v` | the statistics from the command line, freqcd -d, the README's commands (C128, C129) |
| `GenCli*.v` | generate_freqcd_testcase from the command line, and the chain of the freqcd test (C130 - C134) |
| `Scan*.v` | fpfind -P and freqcd from their command lines: a result whenever the coincidences stand out for one of the frequencies (C135, C136) |
| `FftErr*.v` | the correlation with inexact transforms, and fpfind with them (C137, C138) |
| `Ground*.v` | the search on recordings whose common events outnumber the accidental coincidences (C139, C140), a decision procedure for this |
| `Steady*.v` | searches that go on to the target resolution, and one that gives up (C141, C142) |
| `Guard*.v` | the limit on what later iterations may find (C143) |
| `Prom*.v` | significance of the first peak from the times of the events (C145, C146) |
| `Score*.v` | the significance in doubles, with sums in any order (C147, C148) |
| `Eq*.v` | values after `=` on the command line of parse_timestamps (C149) |
| `Round{Model,Spec,Case}.v`, `RoundProofs*.v`, `RoundProps.v` | `round` with significant figures (C150 to C152) |
| `ScanLog{Model,Spec,Case}.v`, `ScanLogProofs*.v`, `ScanLogProps.v` | messages of a search and INFO lines of a scan (C153 to C155) |
| `Loggers{Model,Spec,Proofs,Props}.v` | loggers, handlers, `-L`, `--quiet` (C156 to C158) |
| `Filter{Model,Spec,Proofs,Props}.v` | `get_xcorr` with a filter, over the real numbers (C159) |
| `Text{Model,Spec,Proofs*,Props}.v` | text timestamp files with any ASCII characters (C160 to C163) |
| `Stub{Model,Spec,Proofs,Props}.v` | the stand-in script `src/fpfind/freqcd` and the directory freqcd is called in (C164 to C166) |
| `PlotCli{Model,Spec,Spec2,Proofs,Case,Props}.v` | fpplot from the argument vector to the call of `histogram` (C167 to C171) |
| `Help{Model,Spec,Proofs,Props}.v` | `ArgparseCustomFormatter` of `utils.py` (C172 to C174) |
| `Peak2{Model,Spec,Proofs,Props}.v` | `significance2` and `g2` of `PeakStatistics` (C175, C176) |
| `Date{Model,Spec,Proofs,Props}.v` | `epoch2date` (C177, C178); `datetime.fromtimestamp` compared with Python by `tools/date_check.py` |
| `Loggers2{Spec,Proofs,Props}.v` | loggers below those obtained by `get_logger` (C179) |
| `Head{Model,Spec,Proofs,Props}.v` | header readers and their warnings (C180, C181) |
| `T3Size{Spec,Proofs,Props}.v` | size check of read_T3 (C182) |
| `Profile{Model,Spec,Proofs,Props}.v` | decorator profile (C183); format of the seconds not modelled |
| `CdExact{Spec,Proofs,Props}.v` | exact result of a run of freqcd on a file (C184) |
| `Limits{Spec,Proofs,Props}.v` | time differences kept by read_T1 (C185) |
| `FqPipe{Spec,Proofs,Props}.v`, `FqOff{Spec,Proofs,Props}.v` | frequency pipes (C186, C187) |
| `FqExact{Spec,Proofs,Props}.v` | exact times with a frequency file (C188) |
| `Width{Spec,Proofs,Props}.v` | times and patterns of different lengths (C189) |
| `GenRefuse{Spec,Proofs,Props}.v` | times which are no numbers (C190) |
| `LongFq{Spec,Proofs,Proofs2,Proofs3,Props}.v` | exact times with a frequency file of any length (C191) |
| `AnyFq{Spec,Proofs,Props}.v` | exact times with a frequency file of any content (C192, C195) |
| `NumRefuse{Spec,Proofs,Proofs2,Props}.v` | values of options which are no numbers (C193) |
| `Index{Proofs,Props}.v` | the delay at a position (C194) |
| `Extreme{Spec,Proofs,Props}.v` | every number after -f (C196) |
| `CdWord{Spec,Proofs,Props}.v` | words of freqcd's command line which are no numbers or no options (C197, C198) |
| `CdName{Spec,Proofs,Props}.v` | file names with blanks for freqcd (C199) |
| `Typed{Spec,Proofs,Props}.v` | any text typed into generate_freqcd_testcase (C200) |
| `AnyTime{Spec,Proofs,Props}.v` | times of any form after -t of generate_freqcd_testcase (C201) |
| `Spell{Spec,Proofs,Proofs2,Case,Props}.v` | numbers written in different ways (C202) |
| `GenOut{Spec,Proofs,Props}.v` | -o of generate_freqcd_testcase when events are read (C203) |
| `GenTs{Proofs,Props}.v` | generated events converted by parse_timestamps (C204) |
| `GenBack{Spec,Proofs,Props}.v` | generate_freqcd_testcase reading what it has written (C205) |
| `GenOld{Spec,Proofs,Props}.v` | generated events read in the legacy order by parse_timestamps (C206) |
| `GenExact{Proofs,Props}.v` | exact times of generator, freqcd and decoder in a chain (C207) |
| `GenPipe{Spec,Proofs,Props}.v` | times typed into generate_freqcd_testcase and piped on (C208) |
| `GenFull{Proofs,Props}.v` | generator, freqcd and parse_timestamps in a chain (C209) |
| `GenLegacy{Proofs,Props}.v` | the legacy order through all programs (C210) |
| `Chop*.v` | a recording and the T1 files cut from it (C126, C127) |
| `Skip*.v` | fpfind from the command line with -Z and on epoch directories; fpplot with its result (C123-C125) |
| `Exist*.v` | the search finds something when coincidences stand out, are significant and within reach (C111, C112), decision procedures for the latter two |
| `Precomp*.v` | the same with precompensation (C107) |
| `Detune*.v` | `generate_freqdetuneg2.py` in floating point, and freqcd on its files |
| `Pair*.v` | the search of `time_freq` by differences of pairs of events; constant delays under merging |
| `Signal*.v` | accuracy of the search from a condition on the events alone: the coincidences stand out |
| `Rounded*.v` | the same with rounded times and scalars |
| `Fft*.v` | the transforms of `generate_fft` and `get_xcorr` over the real numbers |
| `Accuracy*.v` | error of the search after several iterations |
| `RepoTests.v` | the project's own tests, run on the model |

Each area has `XModel.v` (definitions only, each citing the lines it models), `XSpec.v` (the small specification the
theorems are stated against), `XStatements.v`/`XRefute.v` (full statements that fail, with counterexamples),
`XProofs*.v`, and `XProps.v` (the property theorems, each closed by `exact`, with `Print Assumptions` and an `Example`
of a non-trivial case).

`properties.jsonl` and `MANIFEST.json` are written by `tools/props.py` and `tools/manifest.py` (notes in
`tools/notes.py`).  `seeded/mutations.py` lists wrong programs, `seeded/mutate.py` rebuilds the proofs against each of
them in a scratch copy and records which theorems fail in `seeded/LOG.jsonl`.

## Modelling conventions

* Integers are unbounded `Z`; fixed-width arithmetic is written out (`mod 2^32`, `mod 2^64`),
  and a signed C operation that would overflow makes the model return an explicit trap.
* Python exceptions are values (`Err ValueError` ...). Loops that may not stop take fuel and return
  an explicit out-of-fuel outcome, which termination theorems exclude (or non-termination theorems force).
* Floats are exact rationals followed by rounding to the format's precision; exponent range, NaN and
  infinities are not modelled.
* numpy is modelled as version 1.24-1.26 (pyproject pins `^1.24.1`), in particular `uint64 + int64` arrays and
  `np.uint64 + int` scalars promote to `float64`.
* Byte order is little-endian (x86-64 Linux), `int` 32, `long`/`long long` 64 bits, arithmetic right shift.
* The OS appears as a schedule: for each main-loop iteration, which descriptors are ready and what read()/write() return.
* Where the model has no answer it says `Unspecified`, never a default that could make a theorem true by accident.
* `X_refuted` proves that the full statement of a property (`CXX_statement`, kept visible) is false of the code, by a
  concrete input.  `X_partial` is the strongest part found to hold, `X_actual` says what the code does instead.

## Trusted base

1. Coq 8.16.1's kernel (including `vm_compute`, used for closed computations in examples and counterexamples).
2. Axioms: `Print Assumptions` follows each of the property theorems (all theorems named `C..` in the `*Props.v`
   files).  For every one except those of `FftProps.v`, `FftErrProps.v` and `FilterProps.v` the answer is **Closed under the global context**: no axiom, of ours
   or of a library, is used.  `C97`, `C97_exact`, `C97_odd`, `C137`, `C137_accurate`, `C138`, `C159`, `C159_ones`, `C159_none`, `C159_one` and `C159_length` are about real numbers and depend on the axioms of the
   standard library's reals: `ClassicalDedekindReals.sig_not_dec`, `ClassicalDedekindReals.sig_forall_dec` and
   `FunctionalExtensionality.functional_extensionality_dep`.
   The files import parts of the standard library that declare axioms without our proofs using them: `ZifyBool` loads
   ssreflect, whose `ssrunder` module is sealed by a signature (`Coq.ssr.ssrunder.Under_rel.*`, seven constants).  These
   appear when all loaded axioms are listed and in no theorem's assumptions.
3. That the definitions in `*Model.v` say what the code says.  Every definition cites its lines.
4. That the definitions in `*Spec.v` say what is wanted.

### Modelled

| code | how |
|------|-----|
| `freqcd.c` 159-461 | three buffers byte for byte with checked accesses; 64-bit arithmetic with traps or wrapping; uninitialised locals; select/read/write as schedule |
| `freqcd.c` 121-216, `getopt.c` | option loop, glibc `strtol`, `sscanf` `%d` and `%200s` (compared with libc by `tools/libc_check.py`), stack overflow of the name buffer, range checks and the `-d` conversion |
| `freqcd.c` 215-233, 456-461 | opening the files in order, regular files read and written through the loop, exit code (`CdRunModel.v`) |
| `parse_timestamps.py` | readers a0/a1/a2 whole and streaming, writers, `_format_timestamps`, `_consolidate_events`, statistics and their report, both masks, `main` from the argument vector to exit code, standard output and files |
| `parse_epochs.py` | headers with warnings, `read_T1`-`read_T4`, `extract_bits`, `write_T1`, epoch/int/date conversions |
| `utils.py` | everything (`ArgparseCustomFormatter` with the base class's filling of texts as a parameter; `round` for ints and finite floats other than -0.0) |
| `fpfind.py` | `time_freq`, `fpfind`, `generate_precompensations`, `main` from the argument vector and files to exit code and output line, `profile` |
| `constants.py` | constants, `PeakFindingFailed` |
| `logging.py` | `format` after the base class, `verbosity2level`, `get_logger`, `set_logfile`, `label2level` on a model of Python's loggers and handlers |
| `generate_freqcd_testcase.py` | everything, from the argument vector to exit code, standard output and files; standard input typed as ASCII text |
| `g2_two_timestamps.py`, `generate_freqdetuneg2.py` | `g2`, `detune` (exact); `detune_ld`, `detune_script` (whole script, in floating point) |
| `fpplot.py` | `main` from the argument vector to exit code or the call of `histogram` and the name of the picture; boiler's parser is taken to be configargparse's, `parse_args_or_help` to do what fpfind.py 543-551 does |
| `src/fpfind/freqcd` | the script (`StubModel.v`), with `_postinstall` as compiling or failing to |

### Not modelled

* argparse is modelled for fpfind, fpplot, parse_timestamps and generate_freqcd_testcase (`ArgModel.v`, Python 3.8-3.11, compared with the standard library by `tools/argparse_check.py`, `argparse_check2.py`, `argparse_check3.py` and `argparse_check4.py`); not modelled: Python's limit of 4300 digits for int() from 3.10.7 on, words with `=` after a group of letters for parse_timestamps and generate_freqcd_testcase (`unclear`; versions differ; `-x=...` for an option without a value is refused, as in Python 3.11.9 and later; for fpfind and fpplot configargparse splits words with `=`, `split_equals`), empty words for fpfind and fpplot (some versions of configargparse fail on them), `--config`, `--save`, `--logging`, help and error texts, configargparse's own additions, configuration files, log contents other than header warnings, the details format and the INFO lines of `fpfind()` (not the texts of numpy's own ValueErrors), tqdm.
* Floating point in the FFT: `get_xcorr` is a parameter `xc` of the search (over the real numbers it is the circular
  correlation, C97; the argument `filter`: C159).  Theorems either hold for any such function, or assume that it is within one
  half, or some e, of the exact circular correlation in every bin (`near_correlation`, `accurate`, `accurate_to`).  The
  hypothesis is only about histograms of the search's number of bins with at most as many events as the two sides have;
  C137 derives it from relative errors of the transforms and of complex products, which stay hypotheses about scipy and numpy.
* numpy's `mean`/`std` in floating point: `zs` is a parameter of the search, with the exact score and the one in doubles (C147, `score_of`: rounded additions in any order, no overflow or underflow) as instances; C71 is about the exact values.
* Opening files other than freqcd's, permissions, signals, blocking; `tempfile`; `matplotlib`.
* Text timestamp files with characters other than hexadecimal digits and newlines in the properties up to C159; on any ASCII text the readers are in `TextModel.v` (`int(v, 16)`, line endings and `strip` compared with Python by `tools/text_check.py`; genfromtxt by reading numpy's source; numbers below zero and bytes outside 1 to 127 are `Unspecified`).
* Exponent overflow/underflow, NaN and infinity in floating point (except the overflow and underflow of float64 in `round`, `RoundModel.v`, which `tools/round_check.py` compares with Python).
* Platforms other than x86-64 Linux; numpy 2.

## Results per property

`MANIFEST.json` gives the theorems and a note for each property.  Properties that do not hold of the code (a `_refuted`
theorem exists), with the reason:

| property | finding |
|----------|---------|
| C05 | `tscorr` is read uninitialised when the first read brings no complete event |
| C08, C09 | corrections depend on how reads split the stream; a short read re-adds the last correction |
| C11 | frequency reads without a newline are dropped |
| C12, C13, C14 | `-2147483648` passes the range check; numbers are cut to `int`; `-d` overflows from 1250000000 on |
| C16 | a 200-character file name writes 201 bytes |
| C18 | when the 54-bit time rolls over the elapsed time is off by 2^64-2^54 units, the correction by `f*(2^30-2^20)` |
| C20, C21, C29 | float64 promotion loses the low bit of times from 2^53 on and rejects single events or mixed arrays |
| C23, C30 | in-memory and streaming readers disagree on malformed files; `read_a1` ignores 1-3 trailing bytes |
| C27 | float64 comparison of uint64 times from 2^53 on |
| C34, C37 | cut inside the last event unnoticed; a T2/T4 file without terminator loops for ever |
| C38 | `read_T2` with integer PS4 results raises TypeError |
| C42 | float division gives the epoch before at multiples of 2^20 s |
| C44 | times restart every 2^17 epochs |
| C51 | a float center raises TypeError |
| C57 | fullscan always raises (for-else) |
| C58 | IndexError on data shorter than the separation |
| C60 | the inverted time offset is wrong unless dt or df is 0 |
| C61 | frequencies at the limit print a number freqcd refuses |
| C64 | `-x` sets a local variable |
| C65 | the named file is overwritten with standard input |
| C67 | `write_T1` with uint64 or int64 arrays |
| C72 | `np.hstack` with two arguments: `significance_raw` always raises |
| C73 | two of four documented examples differ |
| C75 | the last stamp is never discarded |
| C76 | `histogram_fft` always raises, after shifting its inputs |
| C82 | the report ends in OverflowError for a single event (zero duration) |
| C96 | after merging, the early and the late delay are taken modulo different ranges |
| C101 | the first 1024 events are corrected before the frequency file is read |
| C103 | `-i` and `-o` naming one file empty it, exit code 0 |
| C104 | the output is emptied before a missing `-F` file is noticed |
| C116 | README: there is no option `-n`, exit code 2 |
| C117 | `--precomp-start -1e-6` is refused, exit code 2 |
| C120 | without `--inmemory`, converting a file onto itself empties it, exit code 0 |
| C121 | options between the two file names of parse_timestamps are refused, exit code 2 |
| C127 | times in the last 64 ps before the recording's clock starts anew, rounded to float128 with the full epoch, may be those of the next turn |
| C130 | `-x` has no effect on the command line either |
| C132 | without arguments the help is printed, exit code 1; a file named is emptied |
| C141 | the search can give up in the second iteration: a frequency offset too small for the first one counts as spurious there |
| C144 | `--precomp-start=-1e-6` is split by configargparse and refused too, exit code 2 |
| C148 | over three background bins of 0.1 the significance of a peak of 0.2 exceeds 7e15, not 0 |
| C149 | `--tfilter-start -1e3` is refused (exit code 2), `--tfilter-start=-1e3` is not |
| C150 | 16 figures of the float64 after 10^23 are written 9.999999999999999e+22 |
| C151 | `round(10**23, sf=3)` is 99999999999999991611392; 2**1024 raises OverflowError |
| C152 | `round(1.5, sf=1)` is a str |
| C155 | a significance of 5.196, measured at 8192 ns, is shown with 16384 ns, where it is 5 |
| C156 | warnings about epoch headers are not in the file of `-L` |
| C157 | errors appear in spite of `--quiet` |
| C158 | `human_readable` of a second `get_logger` is ignored |
| C161 | with CR LF more batches are announced than produced |
| C162 | comments are ignored in memory and end streams in ValueError |
| C163 | lines are cut to 8 or 16 characters; signs, `0x`, `_` and short lines are accepted |
| C164 | the script changes directory before it runs the program |
| C165 | a relative program name is compiled to another file |
| C166 | the complaint of the script goes to standard output |
| C169 | `--freq -1e-3` and `--freq=-1e-3` are refused, exit code 2 |
| C174 | a print() left in the formatter, for arguments without an option name |
| C178 | `date2epoch` drops the fraction of the second |
| C181 | `read_T1_header` says Type2 |
| C182 | `read_T3` takes zero entries of the last word for padding, and assumes four zeros for a file without entries: size error |
| C185 | with full epochs in float128 two halfway times 128 ps apart round to the same |
| C187 | after an update to 0 events are still moved by what was gained before (this is a wrong expectation in the tests) |
| C196 | `-f -2147483648` passes the range check and then overflows |
| C197 | `-f 12abc` counts as `-f 12`, `-f 1e3` as `-f 1` |
| C198 | unknown options and options without their value are ignored |
| C199 | of a file name with blanks only the first word is used |
| C203 | with an input, generate_freqcd_testcase empties the file after `-o` and prints to standard output |
| C205 | `generate_freqcd_testcase -x -t ... \| generate_freqcd_testcase -x -` prints other times |
| C206 | `parse_timestamps -X -A1` misreads what `generate_freqcd_testcase -x` has written |
| C208 | without `-o` the prompt of generate_freqcd_testcase is in front of the events on standard output |
| C110 | the tests' time formula uses the wrong side's frequency, off by about 2 D F |
