# MELODIST in Rocq (Coq 8.16.1): design

## 1. Shape of the development

`rocq/theories/` (logical name `Verif`):

| layer | files | content |
|---|---|---|
| foundations | `Py.v`, `Num.v`, `Cal.v`, `Series.v` | exceptions as values, number types, calendar, the few pandas/numpy operations used |
| models | `*Model.v` | one Gallina function per Python function, branch by branch, with file:line citations |
| specifications | `Spec*.v` | small independent vocabulary used in the theorem statements |
| proofs | `*Proofs.v` | lemmas |
| properties | `Props*.v` | only `Theorem … exact lemma. Qed.` + `Print Assumptions` + non-vacuity `Example`s |

### Numbers
Model code is written once, against an operation class `Num T` (no laws).  Instances:
* `PrimFloat.float` - IEEE-754 binary64, i.e. what CPython/numpy compute with (executable with `vm_compute`);
* `xr` - exact reals extended with +inf, -inf, NaN ("arithmetic without rounding").

Laws that need exact arithmetic (mass conservation, probability sums, means) are proved at `xr`;
laws about what doubles really do (non-negativity of differences of running sums, exactly dry days,
cumulative weights that miss the largest draw) are proved or refuted at `float`; purely structural laws
(time stamps, lengths, missing-value patterns, own-day values) are proved for every `Num T`, hence for both.
Transcendental functions (cos, exp, log, ...) exist only at `xr`, as the mathematical functions.

### Effects
* exceptions: `res A := Ok a | Err exn`;
* Python local variables that survive loop iterations (`w1`, `vbtype`) are explicit `option` state, so that
  use-before-assignment (`UnboundLocalError`) and stale values are visible;
* `np.random.random()`: an arbitrary stream `nat -> T` plus a position;
* object identity/aliasing (`build_casc` copies, `Station`/`StationStatistics` sharing, `Bunch` copies): explicit heaps;
* removed pandas APIs (`Index.to_datetime`, `pd.datetime`, `Series.append`, `Series.iteritems`,
  `Timedelta.delta`, `del index.name`): a record `env` of booleans says which of them the installed pandas has;
  `modern` has none (the repository's CI installs unpinned pandas and its tests use the alias 'ME', i.e. pandas >= 2.2).
* scipy fits are oracles (function arguments).

## 2. Trusted base
* Coq 8.16.1 kernel incl. `vm_compute` and native float/int primitives.
* Axioms listed by `Print Assumptions` under each theorem in `Props*.v`: at most the standard library's
  `ClassicalDedekindReals.sig_forall_dec`, `sig_not_dec`, `functional_extensionality_dep`, `Classical_Prop.classic`
  (real numbers) and the `FloatAxioms`/`Uint63` specifications of primitive floats/ints. No axioms of our own.
* The reading of pandas/numpy primitives recorded in `Series.v` and in the model files' comments.

## 3. Properties: plan
(see the table at the end, kept current; MANIFEST.json has the theorem names)

| property | plan |
|---|---|
| C01 | `PrecipModel.disagg_prec_cascade` at `xr`; invariant per level: every box splits into two non-negative parts with the same sum; hourly values = sums of 4 quarter-hours (telescoping cumsum); induction over days |
| C02 | same function at `float`; Flocq: rounding is monotone, so running sums are non-decreasing and differences >= 0; bound k*M representable excludes overflow |
| C03 | same at `float`: boxes of a dry day are +0, running sum constant, x-x=0 |
| C04 | structural part for every `Num`; NaN-freeness from C01/C02 invariants |
| C05 | structural induction over levels (lengths) for every `Num` |
| C06 | pandas `Series.shift` model; by definition unfolding against an independent index-wise spec |
| C07 | one-box step function against a relational specification of the branching rule, all `Num`; class centres in [0,1] by computation at float and xr |
| C08 | progress invariant: vbtype assigned and class found, at `xr`; a float version with cumulative weight >= 1 by comparison reasoning |
| C09 | `vm_compute` witnesses on the float instance (UnboundLocalError and stale weight) |
| C10 | case analysis on the model |
| C11 | reuse of level invariant; resample('5min').sum() = bucketed sums; a day's boxes map to the day's 288 bins; existence of a result (C11_returns) from the same totality lemma as C08 |
| C12 | reference recursion over reversed statistics list, refinement |
| C13 | list induction by pairs |
| C14 | counting invariant nb = c01+c10+cxx per cell |
| C15 | counting invariant nbxx = sum over classes, class intervals cover (0,1] |
| C16 | decision lemma: NaN entry iff nb=0 |
| C17 | boolean reduction of `.any()` |
| C18 | convexity over the level list |
| C19 | heap model: separation between copies and later writes |
| C20 | frame state passed through seasons; witness by computation |
| C21 | per-day algebra; days the master record lacks (`PropsTight`) |
| C22 | corollary of C25 |
| C23 | filter/sort lemma |
| C24 | arithmetic of date_range, filter lemma |
| C25 | groupby-transform + ffill(limit) invariant, arbitrary day-of-month function |
| C26 | list induction |
| C27 | characterisation of the two loops; witness |
| C28 | corollary of C25 + day sums |
| C29 | fold min/max/mean inequalities |
| C30 | normalisation algebra; rows and columns of the table (`PropsTight`) |
| C31 | real analysis: derivative/monotone composition |
| C32 | algebraic inversion |
| C33 | acos range and case analysis on the tan product |
| C34 | convex combination, |cos|<=1 |
| C35 | cos 0, cos pi; witness |
| C36 | sum of 24 equidistant cosines = 0 |
| C37 | affine map of a [0,1] course |
| C38 | zero-mean course |
| C39 | convex combination on three pieces |
| C40 | control flow |
| C41 | scaling algebra with cut-off |
| C42 | 0/0 = NaN |
| C43 | spherical trigonometry inequality, clip |
| C44 | monotonicity of exp/power |
| C45 | iterator as consumable list |
| C46 | clip |
| C47 | affine interpolation; for temperatures on another index by the labelwise behaviour of each aligned operation (`PropsHum2.op_at`) |
| C48 | monotonicity from C31 |
| C49 | mean algebra |
| C50 | cosine sum |
| C51 | Rpower/ln signs |
| C52 | invariant over op sequences, heap of statistics objects; witness; effect of the single assignments on all objects (`PropsStationSet.v`) |
| C53 | reindex lemma |
| C54 | exception-state model; constructor (`PropsStation3`); which exception (`PropsTight`) |
| C55 | frame lemma per op |
| C56 | history lemma |
| C57 | `JsonModel` trees; array/list conversion is injective on well-shaped tables, `object_hook` recognises exactly the statistics dictionaries; equality cell by cell |
| C58 | same trees; writing is `ten_decimals` on cells with string keys, reading inverts keys and sorts; characterisation of the writable objects, KeyError/AttributeError cases, idempotence |
| C59 | object heap with `__dict__` slot aliasing the dict; invariants over operation sequences; deep copy by fuel with content/reachability invariants; names of the dict type (`PropsTight`) |
| C60 | `SmetModel`: string-level writer and reader; the reader's tokenizer inverts the writer's padding; number text read back as the rounded number; spec in `SpecSmet` |
| C61 | same trip in mode 'd'; the two renaming dictionaries compose to the exchange of tmin and tmax |
| C62 | header lines split at '=' and stripped, related to `cut` and `trimmed` of the spec; dictionary update lemmas |
| C63 | the writer returns file content, dictionary and frame next to its outcome, so effects before an error are visible |
| C64 | `IoModel` on records; calendar bijection between day numbers and valid dates (`CalProofs`); concatenation invariant over the files |
| C65 | file as list of lines, arbitrary parser; last line removed for every value but None; induction over the list of files |
| C66 | linear interpolation between neighbours; `C66_station` states the whole of `station_interpolate` hour by hour from the daily columns |
| C67 | unfolding of the dispatcher on a Series value |
| C68 | index arithmetic from 45-minute boxes to quarter-hours and hours |
| C69 | empty selection of the percentile; two-value record |
| C70 | invariant of the printing loop |
| C71 | control flow |
| C72 | monotonicity of cos on [pi, 2 pi] |
| C73 | first-maximum scan, lookup in the flattened table, monthly mean |
| C74 | direct radiation on slopes at night, closed form |
| C75 | real power of a negative base |
| C76 | groupby as filter, mean of the class, lookup in the table |
| C77 | combination by position, witness with dates of another year |
| C78 | cosine sum gives the daily mean, residual zero |
| C79 | positional shift by 24 rows, antisymmetry of the sine over kr hours |
| C80 | season subset is sorted but not contiguous, so the hourly index of current pandas fails (C24) inside the loop over the seasons |
| C81 | induction over the list of seasons, each step an overlay of the exact cascade result (C01) on a contiguous block of days |
| C82 | NaN is absorbed by every arithmetic step; success analysis of the four methods |
| C83 | case analysis over the methods; the shift of the cascade (C06) carried through the season loop and the frame for one season |
| C84 | case analysis over the statistics calls with the fitting routines as arbitrary functions |
| C85 | composition of the assignment of daily data (C53) with C22 and C50 and the column assignment |
| C86 | column sums in extended reals are missing only with both infinities; composed with the round trip |
| C87 | renaming and filtering against the relation `kept_as` of `SpecIo`; last non-empty row by reversal |
| C88 | join invariant `joined` over the list of files; sorted union of the times |
| C89 | state transformer; regression pairs and fit rows against the separate specifications `is_pairs`, `wind_rows`; cascade statistics against `levels_of` |
| C90 | residual bound of the fit carried to the hourly values |
| C91 | C37 with the course from the calibration record |
| C92 | C77/C79 with the stored coefficients; least squares recovers a line (`LinReg`); inverse of the dew point (C32) |
| C93 | blocks of 2^L amounts against L-fold pair sums by induction on L (`CalibCasc`), both directions; default tables sum to 1 within 10^-15 by computation; weighted means keep that bound; then C08 per season and C81 |
| C94 | binary64: error of one rounding (Flocq), carried through 5 levels, quarter hours, the running sum and its differences by induction (`CascadeRound`); witness by computation |
| C95 | cloud-free radiation written from the sun's height (`SpecSky`), the station run reduced to the function (C43, C44) with its own sun times and potential radiation; calibration through the rows of C45 |
| C96 | the objective (`RadFitModel`) evaluated on consecutive days (C44's daily formula); the table of C45 shown to be exactly the days of the record (uniqueness of sorted tables); C95 for each day, mean over days |
| C97 | `IndexModel.step_index` (both functions, fill_gaps), `UtilModel.hourly_index_gen`. Set equality of sorted lists, one lemma for any step dividing the day; the deviation at level 8 with a witness. |
| C98 | `StationModel.run_data` for sequences of calls (`SpecOrder.session`). Every call is shown to write a function of what it reads (`OrderProofs.run_write`, `result_input`), then induction over the sequence. |
| C99 | SpecSample.v: tables and initial thresholds as real numbers, written by a script from the text of cascade.py, not from the model. The model's tables are compared with it cell by cell; sums by linear arithmetic; success through C08 and C01; failure of the all-zero object by induction over the boxes up to the first wet one. C14_shipped_tables and C16_shipped_weights restate the fallback of aggregate_precipitation with these printed numbers. |
| C100 | `MasterModel.precip_master_station_with tot`: the model of C21 with the summation of a master day left open; `SpecMasterRound.adds` says what adding in some order means. Rounding error of a sum by induction on the order of addition, of a share by Flocq's relative error, then over 24 hours (`MasterRound`). Left-to-right addition is shown to be one of the orders, which gives the statement for `disagg_prec` itself. |
| C101 | `FiveModel.disagg_prec_cascade_with tot`: the 5-minute branch with the sum of the resampling left open; `SpecFiveRound.sums_within` is what is asked of it. Errors of the levels from C94 (`refines_err`), at most eight boxes per interval, sums over intervals regrouped to the day (`FiveRound`). Error analysis of compensated summation by an invariant on sum and compensation. |
| C102 | `CourseModel`: the course table with the mean left open and the min_max branch for any kind of number; shown equal to the branch of `TempModel.disaggregate_temperature` at exact numbers (C102_same_formula). Monotonicity of rounding gives the exact bounds, Flocq's error bounds the rest (`CourseRound`). |
| C103 | `MasterStoreModel.precip_master_station_pos`: the same loop with the day's values stored by position (numpy slice assignment). Equality with the by-label model on complete days, exact acceptance condition and hours per day by induction over the days (`MasterStore`). |
| C104 | `CascadeTestModel.disagg_prec_cascade_test`: the function with `test=True`, returning the tuple. Case analysis against the ordinary call; the level arrays are a chain of splits by induction over the levels (`CascadeCoarse.levels_from_chain`, `halving_sums`). |
| C105 | `PrecipModel.disagg_prec_cascade` at levels 1 to 8, 0 and above 11. The rows of the resampled boxes are computed exactly (`CascadeCoarse.resample_coarse`, `rowsum_one`, `rowsum_none`); levels beyond the allocated arrays by induction. |
| C106 | `SineModel.temp_sine`: the sine branch for any kind of number with the cosine and pi as parameters; with the true ones shown equal to `TempModel.disaggregate_temperature` (C106_same_formula). `ErrCalc` has one error rule per operation, integers as doubles and numpy's pi (stdlib's Machin series); `SineRound` composes them, the cosine enters through its Lipschitz bound. |
| C107 | `SineModel.wind_cosine`, the same for `WindModel` (C107_same_formula). Error bound by the rules of `ErrCalc`; sign and upper bound by monotonicity of rounding (`WindRound.wind_sign`). |
| C108 | `SpecBack.back`: `UtilModel2.daily_from_hourly` of the hourly frame of a `StationModel` station. What a session leaves in a column is what the deciding call leaves alone (C98); the day's values are those of C37, C38, C36, C47, C81, C85, C95; the aggregation of a day by `DaysProofs.resample_day`. |
| C109 | `ScaleModel` (any `Num`, pandas' mean left open), at `xr` with `nanmean` the branches 'pot_rad' and 'mean_course' of `RadModel.disaggregate_radiation` (C109_same_formula). Relative error of quotient and product (`ScaleRound.ratio_value`), monotonicity of rounding, sum over the day; `means_within` proved for all orders of addition and for Kahan summation. |
| C110 | `HumModel.disaggregate_humidity_gen` at `float` (the same definition whose `xr` instance serves C46 to C48). Rounding error of the three operations (`HumRound.raw_facts`), monotonicity of rounding, then the clip to 0..100; the lower bound by the daily minimum is refuted by a witness. |
| C111 | `SpecNames` lists the documented names and the constants of `Options`; refusal by unfolding the five station methods for an arbitrary string, use by one station with one day (and C81_met for 'cascade') on which the call is evaluated. |
| C112 | `DailyModel.daily_from_hourly_with` at `float`: `UtilModel2.daily_from_hourly` with the summation left open (with `nansum` it is that definition, C112_same_formula). Error of any addition tree over the valid values (`MasterRound.adds_err`) and of compensated summation (`FiveRound.kahan_inv`), then one division; minimum and maximum by `CourseRound.nanmin_float`. That the mean stays between minimum and maximum is refuted by two witnesses. |
| C113 | `InterpModel.station_interpolate` at `float` (the definition whose `xr` instance serves C66). Relative error of difference, quotient and product (`InterpRound.way_err`), at most 1 - 1/n of the way (`way_inside`), then monotone rounding; differences of readings are multiples of 2^-852 (`reading_gap`). A subnormal witness refutes the bound in general. |
| C114 | `CourseMeanModel.temp_course_mean` for any number type, with the mean left open; at `xr` it is the branch of `TempModel.disaggregate_temperature` (`C114_same_formula`). Error of difference, product and sum in `CourseMean.mean_facts`, order by monotone rounding; witness for the inexact mean. |
| C115 | `SmetModel.read_smet` on files described by `SpecForeign.smet_file` (numerals over Coq's `Decimal.uint`, words separated by arbitrary blanks). `SmetForeign`: numerals are read as their value (`number_numeral`), words are found between blanks (`words_spaced`), header and table (`read_file`). Concrete file with time in the second column as witness. |
| C116 | `StationModel.run` from the empty world. Invariant `consistent` by induction over the calls (`PropsReach`); `C116_ready` gives the precondition `ready` of the station properties C81-C98 for every reachable station with consecutive days. Witness for the stale hourly frame. |
| C117 | `RadModel.disaggregate_radiation`, `StationModel.st_radiation` and `put_series`. `ffill_grid`/`ffill_resample`: forward filling from a daily grid at arbitrary times; `put_series_any`: storing by label; the covered hours of a day are found back in order (`sorted_same`). |
| C118 | The requirements of each call as a list in `SpecNeeds` (boolean, exception), independent of the model; `PropsNeeds` proves `raised call = first_missing needs` for stations satisfying the invariant of C116, by cases over the methods, with `mapM_key`/`mapM_course` for the tables. |
| C119 | The requirements as lists in `SpecNeeds`; `PropsStatNeeds` proves `failure call = first_missing needs` followed by the outcome of the fit, by cases; precipitation from C93. |
| C120 | Counts are exact integers in doubles (`AggRound.counted_all`, induction over the pairs), each share is a correctly rounded quotient, the shipped decimals are correctly rounded literals, averaging by an error bound per level (`fold_err`), the cumulated weights by `cum_err`; the cascade by C08. |
| C121 | C14 to C16 and C18 in binary64: the loop is followed pair by pair by a table of natural numbers that the doubles represent exactly (`CountRound.fexamine`), the table is the number of pairs by induction (`fcounts`), the quotients are correctly rounded; averages by `fmean_err` of C120. |
| C122 | C48 and C49 in binary64: `HumMean.corrected_spec` bounds the correction, `partly_clip` shows that the first clip does nothing, `corrected_mean` the mean of the corrected day; `saturated_spec` bounds the quotient of the vapour pressures; monotonicity from monotone rounding. |
| C123 | `BuildRecordModel` returns the column also when the call raises; induction over the seasons; the count of sums is positive after a successful level (`BuildProofs.loop_count`). |
| C124 | `RadAnyModel` is generic in the number type; the `same_` theorems identify it with the exact model. Angstroem and random wind by the error calculus of `ErrCalc` and bounds on ln and exp; Bristow-Campbell by monotonicity of each rounded operation. |
| C125 | `PotAnyModel` is generic in the number type and identified with the exact model by C125_same. Error calculus of `ErrCalc` through every operation; the clip at 0 is 1-Lipschitz; on flat terrain the incidence term is exactly the height (or NaN). Any terrain: interval propagation with rounding monotone. |
| C126 | `SunAnyModel` is generic in the number type and identified with the exact model by C126_same. Error calculus of `PotAny` through declination, equation of time, tangent (difference formula, cosine at least 0.0087 up to 89 degrees) and arc cosine (mean value theorem); sign of the day length by monotone rounding of the same operations on both sides. |
| C127 | `VapAnyModel` is generic in the number type and identified with the exact model by C127_same. Error calculus of `PotAny` plus a quotient with rounded denominator for the exponent; relative error afterwards; logarithm of a relative perturbation for the dew point; `C122` transfers to hourly humidity. |
| C128 | `linear_function` computes the series for any kind of number (the shift by a day included); error calculus of `PotAny` for the dew point, 1e-11 K; the Magnus exponent is 0.3-Lipschitz on each side of 273.15 K and 0 there, so a phase that differs between the rounded and the exact dew point does no harm; then `C127`. |
| C129 | `temp_sun` is the method with the sun table; `C129_hours` computes the hours from `C126` (sun times within 1e-8 h), sums of small whole numbers are exact, comparison of whole doubles is that of integers, and no day is shorter than the three hours of the polar branch; values from `C106`. |
| C130 | `shift_any` for any kind of number; `entry_any` computes the entry of a month by structure; the first maximum of doubles is that of the numbers they stand for (`first_max_reading`); noon from `C126`; differences of means of lists that are close element by element; `C130_then_hours` composes with `C129_hours`. |
| C131 | On `disaggregate_temperature` and `get_shift_by_data` directly: the first exception of the list of lookups, a missing shift makes the hour of that day missing whatever the noon and cannot be replaced by the standard hour, conversions raise only ValueError; the entries of the table from `C73_monthly_shift`; the successful case from `locations_spec` after replacing the unused entries. |
| C132 | `classes_any` for any kind of number; the table and the lookup by structure (`table_classes`, `class_lookup`); sums of amounts by `rain_on_day`; the class mean lies in 0..100, so the final clipping does not increase its error (`to_percent_lip`). |
| C133 | C125 for every hour of a day, C109 for the scaling; the shares of two courses with means close to each other are close (`share_close`), and no hour exceeds 24 times the mean. |
| C134 | The vector to the sun has length 1 (`sun_unit`), so the sine of the zenith angle exceeds the eastward component by at least 4e-11 there (`zenith_sine`), more than all rounding errors together; then C125 and C133. |
| C135 | The horizontal component of the sun's direction towards the slope equals sqrt(s^2-q^2) cos az + q sin az (`turned`), which needs no arc sine and is stable (`turned_close`); the rest by the error calculus of C125. |
| C136 | The daily value by `angstroem_error` of C124 applied to the computed mean (`ssd_value`), the scaling by `day_scaled` of C109 and `day_clear` of C133; `sunshine_close` adds the errors. |
| C137 | `BcModel` around `bristow_any` of C124; the daily values by C124_bristow, the scaling by `day_scaled` of C109; monotonicity in the daily value by monotonicity of rounding (`hour_mono_daily`). |
| C138 | `RadModel.disaggregate_radiation` with an arbitrary sun table (`ssd_any_sun`, by `lookup_filter`); scaling as in C41. |
| C139 | `RadAnyModel.bristow_any` on `on_days` (lookups in the reindexed frame, `next_list_any`); exact case through C124_same_bristow with `month_fins`. |
| C140 | Closed forms of the results (`distribute_xr`, `course_min_max_ok`, `raw_min_max`, `scale_day`) on a cut index (`map_pieces`, `scale_pieces`); sine methods by `sine_hours` and uniqueness of the rounded hours; refutation for `bristow_campbell` by two days. |

## 4. What is modelled, function by function

Every definition of a `*Model.v` file cites the lines it follows. "Simplified" below repeats what the comments there say.

| source | modelled as | not modelled / simplified |
|---|---|---|
| `cascade.py` `BoxTypes`, `CascadeStatistics.__init__`, `fill_with_sample_data`, `__add__`, `__mul__` | `CascadeModel` (values), `AggModel.heap_add`, `heap_mul`, `alloc_casc` (arrays and objects in a heap) | tables are functions of the indices; reading outside them gives 0 in the model and the proofs show that the code's loops stay inside |
| `cascade.py` `__eq__`, `__ne__`, `from_dict` | `JsonModel.casc_eqb`, `casc_neb`, `from_dict` | comparison with an object of another class |
| `precipitation.py` `disagg_prec` | `PrecipModel.disagg_prec` | a frame given to 'cascade' or 'masterstation' fails, the exception is not traced |
| `disagg_prec_cascade` | `PrecipModel.disagg_prec_cascade_full` and helpers, both `hourly` modes, any `level`, `test` mode as `CascadeTestModel.disagg_prec_cascade_test`; with open summation for `hourly=False`: `FiveModel.disagg_prec_cascade_with` | the text of warnings and prints |
| `precip_master_station` | `PrecipModel.precip_master_station`; with open order of summation `MasterModel.precip_master_station_with`; assignment by position `MasterStoreModel.precip_master_station_pos` | which of the two assignments applies is a property of the installed pandas (by label before 1.4, by position in 1.4 and 1.5) |
| `aggregate_precipitation`, `seasonal_subset`, `build_casc` | `AggModel`; with the caller's column after a failure: `BuildRecordModel` | the percentile is a parameter of the model, `np_percentile` is the reading of numpy's linear method for an integer percentile |
| `sub_level_index`, `fmin_index` | `PrecipModel.sub_level_index`, `fmin_index`; with `fill_gaps`: `IndexModel.*_gen` | frequency alias `L` of `fmin_index` taken as milliseconds (pandas 3 rejects it); the index of `sub_level_index` for `level` other than 9 as stated in its comment |
| `temperature.py` `disaggregate_temperature`, `get_shift_by_data` | `TempModel`; for any kind of number the branch mean_course_min_max: `CourseModel`, the sine branch (hours of minimum and maximum given): `SineModel`, with hours from sun times: `SunLocModel`, `get_shift_by_data`: `ShiftModel` | 'sun_loc_shift': sun times have the labels of the daily data; a decreasing daily index raises; `get_shift_by_data`: a day without values has no hour of the maximum (pandas before 3; later versions raise in `idxmax`) |
| `humidity.py` `disaggregate_humidity`, `calculate_month_hour_precip_mean` | `HumModel`; with any mean: `HumMeanModel`; saturation pressure and wave for any kind of number: `VapAnyModel`, `DewAnyModel` | labels unique |
| `calculate_dewpoint_regression` | `HumModel.dewpoint_pairs` | the regression itself is an oracle; `return_stats` is passed through to it |
| `radiation.py` `potential_radiation`, `bristow_campbell`, `angstroem`, `disaggregate_radiation` | `RadModel`; for any kind of number: `PotAnyModel` (`potential_radiation`), `RadAnyModel` (`angstroem`, `bristow_campbell`), `ScaleModel`, `SsdModel`, `BcModel` (the methods of `disaggregate_radiation`) | model parameters are both numbers or both series |
| `fit_bristow_campbell_params`, `fit_angstroem_params` | the rows given to scipy (`join4`), the objective `RadFitModel.bc_absbias`; the optimiser is an oracle | convergence, warnings and the objective's values on the way |
| `wind.py` `_cosine_function`, `disaggregate_wind`, `fit_cosine_function` | `WindModel` (rows given to `curve_fit`); for any kind of number: `SineModel.wind_cosine` ('cosine'), `RadAnyModel.random_any` ('random') | the fit is an oracle; draws of 'random' are an arbitrary stream |
| `station.py` all of `Station` | `StationModel` (operations on a world of stations and statistics objects), `InterpModel.station_interpolate` | `interpolate` with `method` other than 'linear'; passing other objects than frames is one case `VOther` |
| `stationstatistics.py` all of `StationStatistics` | `StationModel` (statistics calls), `RadModel.calc_radiation_stats`, `JsonModel.to_json`, `from_json` | the JSON text itself: `json`/`ujson` printing and parsing of the tree are trusted; numbers pandas writes are rounded to ten decimals |
| `util/util.py` all functions | `UtilModel`, `UtilModel2`, `InterpModel`; for any kind of number: `SunAnyModel`, `VapAnyModel` | printed messages of `detect_gaps` are values of a small type, not text; `linregress` is an oracle (`LinReg.ols` is an instance) |
| `util/bunch.py` `Bunch` | `BunchModel` | dictionaries that contain themselves through a list; attribute names of `dict` beyond the listed ones |
| `data_io.py` `read_smet`, `write_smet` | `SmetModel`, on the text of the file | column widths of `to_string` are an arbitrary function; quotes in headers; number texts beyond sign, digits, point |
| `read_dwd`, `read_single_knmi_file`, `read_knmi_dataset` | `IoModel`, from the parsed rows on | the CSV tokenizer, directory listing (the list of files is given, in any order) |
| `__init__.py` | the lists of columns; the constants of the deprecated class `Options`: `SpecNames` | |

Not modelled at all: performance, memory, warnings, plotting notebooks in `examples/`, `setup.py`.

The readings of library calls on which the model rests (they are definitions, not axioms): `Series.v` (`resample`, `reindex`,
`groupby`, label look-up, NaN-skipping reductions), `Frame.v`, `Cal.v` (proleptic Gregorian calendar), `AggModel.np_percentile`,
`InterpModel` (`interpolate` with a limit in both directions), `SmetModel` (`str.strip`, `split`, `to_string`, `read_table`),
`IoModel` (`concat`, `join`), `BunchModel` (dict and `copy`), `JsonModel` (`to_json`, `read_json` on a tree).

## 5. What `Print Assumptions` lists, theorem by theorem

Generated by `tools/assumptions.py` from the built development: only the standard library's axioms and the
kernel's primitive integers and floats occur.

### Closed under the global context

82 theorems: C05_hourly_time_stamps, C05_fewer_than_two_days, C05_not_at_hour_zero, C06_shift, C10_list_length, C10_option_type, C10_too_few_thresholds, C10_unknown_method, C10_cascade_without_statistics, C13_pairs, C19_levels_undisturbed, C19_other_instances_untouched, C19_succeeds, C20_fills_callers_data, C23_selects_months, C23_all, C23_groupings_partition, C23_empty_raises, C24_gap_free, C24_gaps, C24_ascending, C25_own_day, C25_own_day_divided, C26_count, C26_zero_iff_equidistant, C26_current_pandas, C27_block, C27_contiguous, C27_invalid_shift, C27_incomplete_survives, C57_equality, C57_wrong_shape, C57_incomplete, C59_access_agrees, C59_write_read, C59_reserved_refuted, C59_copy_independent, C59_copy_shares, C59_copy_self_refuted, C59_deepcopy, C59_deepcopy_ends, C59_deepcopy_cycle, C59_deepcopy_sharing_refuted, C59_type_names, C62_clean_entry, C64_stamps, C64_hours, C64_rejected, C64_current_pandas, C64_dataset, C65_false_is_true, C65_last_line_ignored, C65_none_keeps, C65_several_files, C67_series_rejected_by_equal, C70_listing, C70_misleading_refuted, C87_columns, C87_no_temp, C87_mode, C87_header, C87_no_header, C88_joined, C88_overlap, C88_no_files, C97_gap_free, C97_fill_gaps, C97_gaps, C97_equally_spaced_refuted, C103_same_on_complete_days, C104_same_outcome, C105_too_fine, C105_level_zero, C112_same_formula, C120_percentile, C122_same_formula, C123_same_function, C123_record, C123_no_level, C123_only_no_level, C132_same, C139_any_days

### `ClassicalDedekindReals.sig_forall_dec`, `FunctionalExtensionality.functional_extensionality_dep`

104 theorems: C01_mass_conservation, C04_missing_days_exact, C04_missing_counts_as_dry, C07_branching_rule_exact, C07_no_early_return_exact, C08_never_fails_exact, C11_five_minutes, C11_returns, C13_total, C14_branching_distribution, C14_default_tables, C14_shipped_tables, C15_weight_distribution, C16_statistics_or_sample, C16_threshold_in_range, C16_shipped_weights, C17_check_accepts, C17_rejects_only_zero, C18_weighted_means, C18_mean_of_distributions, C18_mean_of_weights, C21_master_station, C21_current_pandas, C21_days_without_master, C22_equal_distribution, C28_precip_roundtrip, C28_mean_roundtrip, C29_columns, C29_no_other_columns, C29_missing_day, C29_min_mean_max, C30_rows, C30_normalised_span, C30_normalised_affine, C30_constant_nan, C30_plain_means, C37_course_from_data, C44_angstroem_bounds, C57_reflexive, C57_roundtrip, C58_roundtrip, C58_writable, C58_temperature_month_missing, C58_humidity_single_row, C58_radiation_month_missing, C58_second_trip, C60_roundtrip, C60_current_pandas, C60_missing, C60_value_lost, C60_close, C61_exchanged, C62_metadata, C62_header, C62_no_equals, C63_file_lost, C63_no_rows, C64_values, C64_sunshine, C66_station, C66_limit, C66_placement, C66_keeps_observations, C66_between, C66_far_and_ends, C66_current_pandas, C68_hours_from_boxes, C69_no_rain, C69_single_pair, C76_table, C80_season_with_gap, C81_cascade_conserves, C83_shift_ignored, C83_shift_acts, C83_unknown_method, C83_master_current, C85_precipitation_equal, C86_dropped, C86_empty_column_written, C99_sample_data, C99_new_object, C99_nearly_distributions, C99_distributions_refuted, C99_works, C99_new_object_fails, C103_by_position, C103_conservation_refuted, C103_agreement_refuted, C104_arrays_of_the_cascade, C104_every_level_conserves, C104_quarter_hours, C104_box_series, C105_coarse_levels, C105_conservation, C105_rows_absent, C105_always_returned, C115_read, C115_wrong_count, C115_current_pandas, C115_other_entries, C115_own_multiplier_refuted, C118_precipitation, C124_same_angstroem, C140_equal

### `ClassicalDedekindReals.sig_forall_dec`, `ClassicalDedekindReals.sig_not_dec`, `FunctionalExtensionality.functional_extensionality_dep`

53 theorems: C31_linear_positive, C31_continuous_at_0C, C31_missing, C31_elementwise, C34_between, C35_attained, C35_minimum_missed_refuted, C36_mean_and_range, C37_min_max, C38_mean, C39_night, C40_polar_raises, C40_only_long_days, C40_example_value_error, C46_between_0_and_100, C47_min_max, C47_isothermal_day_missing, C47_any_hours, C49_preserved_mean, C49_no_observation, C49_clipping_refuted, C71_default_sun_times, C71_all_defaults, C71_needs_temp, C71_invalid_method, C72_jump, C76_lookup, C76_missing_class, C77_combined_by_position, C77_wrong_length, C78_exact_fit, C79_linear_dewpoint, C79_wave_mean_zero, C79_refused, C82_humidity_before_temperature, C102_same_formula, C106_same_formula, C114_same_formula, C118_humidity, C118_temperature, C118_no_temperature, C128_same, C129_same, C131_absent_month, C131_missing_shift, C131_other_months, C140_temperature, C140_humidity_equal, C140_humidity_min_max, C140_humidity_dew, C140_humidity_table, C140_humidity_linear, C140_sine

### `ClassicalDedekindReals.sig_forall_dec`, `ClassicalDedekindReals.sig_not_dec`, `Classical_Prop.classic`, `FunctionalExtensionality.functional_extensionality_dep`

138 theorems: C31_increasing, C32_dewpoint, C32_monotone, C32_dry_air, C32_inverse_refuted, C33_sun_times, C41_potential_shape, C41_mean_course, C41_negative_is_zero, C41_missing_is_missing, C42_polar_night, C42_sun_below_horizon, C43_flat, C43_any_terrain, C43_sum, C43_zenith_nan, C44_via_ssd, C44_no_daylight, C44_via_bc, C45_angstroem_groups, C45_bristcamp_groups, C45_monthly_skips_bristcamp, C45_untouched, C45_interrupted, C48_minimal, C50_cosine, C50_equal, C50_refused, C51_random, C51_mean_refuted, C52_in_sync, C52_shared_overwritten, C52_sharing_refuted, C52_location, C52_statistics, C53_gap_free, C53_accepted, C54_refused_unchanged, C54_stepped_frequency, C54_no_coordinates, C54_constructor, C54_constructor_refused, C54_exception, C55_own_column, C55_other_objects, C55_statistics, C56_only_changed_by, C56_stale, C56_stale_timezone, C73_monthly_shift, C74_slope_at_night, C74_midnight, C75_negative_range_is_nan, C82_silent, C84_failed_statistics, C85_wind, C89_wind, C89_wind_outcome, C89_temperature, C89_humidity, C89_data, C89_radiation, C89_precipitation, C89_no_season, C90_wind, C91_temperature, C92_formulas, C92_reproduces, C92_categories, C93_calibrates, C93_disaggregates, C93_conserves, C95_own_sky, C95_sunshine, C95_temperature, C95_mean_course, C95_sunshine_calibrated, C96_objective, C96_reproduces, C96_day_before_gap, C98_order, C98_repeat, C98_anywhere, C98_last_call, C98_untouched, C98_humidity, C98_sun_times, C98_order_refuted, C107_same_formula, C108_equal_precipitation, C108_cascade_precipitation, C108_wind, C108_temperature_extremes, C108_temperature_mean, C108_radiation, C108_unfilled, C108_humidity_extremes, C109_same_formula, C111_refused, C111_radiation_refused, C111_sun_times_stay, C111_names, C111_options, C116_consistent, C116_ready, C116_stale_refuted, C117_labels, C117_after_the_end, C117_station, C117_repeated_labels, C117_covered_hours, C118_no_data, C118_wind, C118_radiation, C119_wind, C119_temperature, C119_humidity, C119_precipitation, C119_radiation, C119_no_record, C124_same_bristow, C124_same_random, C125_same, C125_same_series, C126_same, C127_same, C130_same, C131_calibrated, C136_same_formula, C137_same_formula, C138_some_days, C138_other_days, C138_long_sunshine, C139_exact_days, C140_wind, C140_radiation, C140_radiation_course, C140_temperature_range_refuted

### Primitives only

primitives: `PrimFloat.add`, `PrimFloat.div`, `PrimFloat.eqb`, `PrimFloat.float`, `PrimFloat.leb`, `PrimFloat.ltb`, `PrimFloat.mul`, `PrimFloat.of_uint63`, `PrimFloat.opp`, `PrimFloat.sub`, `PrimInt63.int`, `PrimInt63.lor`, `PrimInt63.lsl`, `PrimInt63.sub`

21 theorems: C04_missing_counts_as_dry_float, C07_no_early_return_float, C09_sample_statistics_crash_refuted, C09_default_weights_crash_refuted, C09_stale_weight_refuted, C20_depends_on_position, C20_depends_on_history, C25_own_day_float, C64_precip_f64, C67_frame_accepted_by_equal, C94_own_amount_refuted, C100_left_to_right, C101_same_success, C102_table, C102_maximum_refuted, C110_minimum_refuted, C112_mean_within_refuted, C113_subnormal_refuted, C120_all_draws_refuted, C122_saturation_refuted, C124_angstroem_refuted

### `ClassicalDedekindReals.sig_forall_dec`, `ClassicalDedekindReals.sig_not_dec`, `Classical_Prop.classic`, `FloatAxioms.Prim2SF_valid`, `FunctionalExtensionality.functional_extensionality_dep`

primitives: `PrimFloat.abs`, `PrimFloat.div`, `PrimFloat.eqb`, `PrimFloat.float`, `PrimFloat.frshiftexp`, `PrimFloat.ltb`, `PrimFloat.normfr_mantissa`, `PrimInt63.eqb`, `PrimInt63.int`, `PrimInt63.land`, `PrimInt63.lsr`

1 theorems: C134_equator

### `ClassicalDedekindReals.sig_forall_dec`, `FloatAxioms.Prim2SF_valid`, `FunctionalExtensionality.functional_extensionality_dep`

primitives: `PrimFloat.abs`, `PrimFloat.add`, `PrimFloat.div`, `PrimFloat.eqb`, `PrimFloat.float`, `PrimFloat.frshiftexp`, `PrimFloat.leb`, `PrimFloat.ltb`, `PrimFloat.mul`, `PrimFloat.normfr_mantissa`, `PrimFloat.of_uint63`, `PrimFloat.opp`, `PrimFloat.sub`, `PrimInt63.eqb`, `PrimInt63.int`, `PrimInt63.land`, `PrimInt63.lor`, `PrimInt63.lsl`, `PrimInt63.lsr`, `PrimInt63.sub`

3 theorems: C100_exact_refuted, C114_exact_mean_refuted, C132_table

### `FloatAxioms.eqb_spec`, `FloatAxioms.leb_spec`, `FloatAxioms.ltb_spec`

primitives: `PrimFloat.abs`, `PrimFloat.add`, `PrimFloat.div`, `PrimFloat.eqb`, `PrimFloat.float`, `PrimFloat.frshiftexp`, `PrimFloat.leb`, `PrimFloat.ltb`, `PrimFloat.mul`, `PrimFloat.normfr_mantissa`, `PrimFloat.of_uint63`, `PrimFloat.opp`, `PrimFloat.sub`, `PrimInt63.eqb`, `PrimInt63.int`, `PrimInt63.land`, `PrimInt63.lor`, `PrimInt63.lsl`, `PrimInt63.lsr`, `PrimInt63.sub`

1 theorems: C46_between_0_and_100_binary64

### `ClassicalDedekindReals.sig_forall_dec`, `ClassicalDedekindReals.sig_not_dec`, `Classical_Prop.classic`, `FloatAxioms.Prim2SF_SF2Prim`, `FloatAxioms.Prim2SF_valid`, `FloatAxioms.SF2Prim_Prim2SF`, `FloatAxioms.abs_spec`, `FloatAxioms.eqb_spec`, `FloatAxioms.leb_spec`, `FunctionalExtensionality.functional_extensionality_dep`

primitives: `PrimFloat.abs`, `PrimFloat.add`, `PrimFloat.div`, `PrimFloat.eqb`, `PrimFloat.float`, `PrimFloat.frshiftexp`, `PrimFloat.ldshiftexp`, `PrimFloat.leb`, `PrimFloat.ltb`, `PrimFloat.mul`, `PrimFloat.normfr_mantissa`, `PrimFloat.of_uint63`, `PrimFloat.opp`, `PrimFloat.sub`, `PrimInt63.eqb`, `PrimInt63.int`, `PrimInt63.land`, `PrimInt63.lor`, `PrimInt63.lsl`, `PrimInt63.lsr`, `PrimInt63.sub`

1 theorems: C109_back

### `ClassicalDedekindReals.sig_forall_dec`, `ClassicalDedekindReals.sig_not_dec`, `Classical_Prop.classic`, `FloatAxioms.Prim2SF_SF2Prim`, `FloatAxioms.Prim2SF_valid`, `FloatAxioms.SF2Prim_Prim2SF`, `FloatAxioms.eqb_spec`, `FloatAxioms.ltb_spec`, `FloatAxioms.mul_spec`, `FunctionalExtensionality.functional_extensionality_dep`

primitives: `PrimFloat.abs`, `PrimFloat.add`, `PrimFloat.div`, `PrimFloat.eqb`, `PrimFloat.float`, `PrimFloat.frshiftexp`, `PrimFloat.ldshiftexp`, `PrimFloat.leb`, `PrimFloat.ltb`, `PrimFloat.mul`, `PrimFloat.normfr_mantissa`, `PrimFloat.of_uint63`, `PrimFloat.opp`, `PrimFloat.sub`, `PrimInt63.eqb`, `PrimInt63.int`, `PrimInt63.land`, `PrimInt63.lor`, `PrimInt63.lsl`, `PrimInt63.lsr`, `PrimInt63.sub`

1 theorems: C124_random_zero

### `ClassicalDedekindReals.sig_forall_dec`, `ClassicalDedekindReals.sig_not_dec`, `Classical_Prop.classic`, `FloatAxioms.Prim2SF_SF2Prim`, `FloatAxioms.Prim2SF_valid`, `FloatAxioms.SF2Prim_Prim2SF`, `FloatAxioms.abs_spec`, `FloatAxioms.add_spec`, `FloatAxioms.eqb_spec`, `FloatAxioms.leb_spec`, `FunctionalExtensionality.functional_extensionality_dep`

primitives: `PrimFloat.abs`, `PrimFloat.add`, `PrimFloat.div`, `PrimFloat.eqb`, `PrimFloat.float`, `PrimFloat.frshiftexp`, `PrimFloat.ldshiftexp`, `PrimFloat.leb`, `PrimFloat.ltb`, `PrimFloat.mul`, `PrimFloat.normfr_mantissa`, `PrimFloat.of_uint63`, `PrimFloat.opp`, `PrimFloat.sub`, `PrimInt63.eqb`, `PrimInt63.int`, `PrimInt63.land`, `PrimInt63.lor`, `PrimInt63.lsl`, `PrimInt63.lsr`, `PrimInt63.sub`

1 theorems: C101_plain_sum

### `ClassicalDedekindReals.sig_forall_dec`, `ClassicalDedekindReals.sig_not_dec`, `Classical_Prop.classic`, `FloatAxioms.Prim2SF_SF2Prim`, `FloatAxioms.Prim2SF_valid`, `FloatAxioms.SF2Prim_Prim2SF`, `FloatAxioms.abs_spec`, `FloatAxioms.div_spec`, `FloatAxioms.eqb_spec`, `FloatAxioms.leb_spec`, `FunctionalExtensionality.functional_extensionality_dep`

primitives: `PrimFloat.abs`, `PrimFloat.add`, `PrimFloat.div`, `PrimFloat.eqb`, `PrimFloat.float`, `PrimFloat.frshiftexp`, `PrimFloat.ldshiftexp`, `PrimFloat.leb`, `PrimFloat.ltb`, `PrimFloat.mul`, `PrimFloat.normfr_mantissa`, `PrimFloat.of_uint63`, `PrimFloat.opp`, `PrimFloat.sub`, `PrimInt63.eqb`, `PrimInt63.int`, `PrimInt63.land`, `PrimInt63.lor`, `PrimInt63.lsl`, `PrimInt63.lsr`, `PrimInt63.sub`

1 theorems: C94_equal_up_to_rounding

### `ClassicalDedekindReals.sig_forall_dec`, `ClassicalDedekindReals.sig_not_dec`, `Classical_Prop.classic`, `FloatAxioms.Prim2SF_SF2Prim`, `FloatAxioms.Prim2SF_valid`, `FloatAxioms.SF2Prim_Prim2SF`, `FloatAxioms.abs_spec`, `FloatAxioms.eqb_spec`, `FloatAxioms.leb_spec`, `FloatAxioms.ltb_spec`, `FunctionalExtensionality.functional_extensionality_dep`

primitives: `PrimFloat.abs`, `PrimFloat.add`, `PrimFloat.div`, `PrimFloat.eqb`, `PrimFloat.float`, `PrimFloat.frshiftexp`, `PrimFloat.ldshiftexp`, `PrimFloat.leb`, `PrimFloat.ltb`, `PrimFloat.mul`, `PrimFloat.normfr_mantissa`, `PrimFloat.of_uint63`, `PrimFloat.opp`, `PrimFloat.sub`, `PrimInt63.eqb`, `PrimInt63.int`, `PrimInt63.land`, `PrimInt63.lor`, `PrimInt63.lsl`, `PrimInt63.lsr`, `PrimInt63.sub`

1 theorems: C132_humidity

### `ClassicalDedekindReals.sig_forall_dec`, `ClassicalDedekindReals.sig_not_dec`, `Classical_Prop.classic`, `FloatAxioms.Prim2SF_SF2Prim`, `FloatAxioms.Prim2SF_valid`, `FloatAxioms.SF2Prim_Prim2SF`, `FloatAxioms.abs_spec`, `FloatAxioms.add_spec`, `FloatAxioms.eqb_spec`, `FloatAxioms.leb_spec`, `FloatAxioms.sub_spec`, `FunctionalExtensionality.functional_extensionality_dep`

primitives: `PrimFloat.abs`, `PrimFloat.add`, `PrimFloat.div`, `PrimFloat.eqb`, `PrimFloat.float`, `PrimFloat.frshiftexp`, `PrimFloat.ldshiftexp`, `PrimFloat.leb`, `PrimFloat.ltb`, `PrimFloat.mul`, `PrimFloat.normfr_mantissa`, `PrimFloat.of_uint63`, `PrimFloat.opp`, `PrimFloat.sub`, `PrimInt63.eqb`, `PrimInt63.int`, `PrimInt63.land`, `PrimInt63.lor`, `PrimInt63.lsl`, `PrimInt63.lsr`, `PrimInt63.sub`

2 theorems: C101_compensated_sum, C112_sums

### `ClassicalDedekindReals.sig_forall_dec`, `ClassicalDedekindReals.sig_not_dec`, `Classical_Prop.classic`, `FloatAxioms.Prim2SF_SF2Prim`, `FloatAxioms.Prim2SF_valid`, `FloatAxioms.SF2Prim_Prim2SF`, `FloatAxioms.abs_spec`, `FloatAxioms.eqb_spec`, `FloatAxioms.leb_spec`, `FloatAxioms.ltb_spec`, `FloatAxioms.mul_spec`, `FunctionalExtensionality.functional_extensionality_dep`

primitives: `PrimFloat.abs`, `PrimFloat.add`, `PrimFloat.div`, `PrimFloat.eqb`, `PrimFloat.float`, `PrimFloat.frshiftexp`, `PrimFloat.ldshiftexp`, `PrimFloat.leb`, `PrimFloat.ltb`, `PrimFloat.mul`, `PrimFloat.normfr_mantissa`, `PrimFloat.of_uint63`, `PrimFloat.opp`, `PrimFloat.sub`, `PrimInt63.eqb`, `PrimInt63.int`, `PrimInt63.land`, `PrimInt63.lor`, `PrimInt63.lsl`, `PrimInt63.lsr`, `PrimInt63.sub`

5 theorems: C07_branching_rule_float, C08_never_fails_float, C08_never_fails_five_minutes, C12_level_statistics, C12_single_object

### `ClassicalDedekindReals.sig_forall_dec`, `ClassicalDedekindReals.sig_not_dec`, `Classical_Prop.classic`, `FloatAxioms.Prim2SF_SF2Prim`, `FloatAxioms.Prim2SF_valid`, `FloatAxioms.SF2Prim_Prim2SF`, `FloatAxioms.abs_spec`, `FloatAxioms.eqb_spec`, `FloatAxioms.leb_spec`, `FloatAxioms.ltb_spec`, `FloatAxioms.sub_spec`, `FunctionalExtensionality.functional_extensionality_dep`

primitives: `PrimFloat.abs`, `PrimFloat.add`, `PrimFloat.div`, `PrimFloat.eqb`, `PrimFloat.float`, `PrimFloat.frshiftexp`, `PrimFloat.ldshiftexp`, `PrimFloat.leb`, `PrimFloat.ltb`, `PrimFloat.mul`, `PrimFloat.normfr_mantissa`, `PrimFloat.of_uint63`, `PrimFloat.opp`, `PrimFloat.sub`, `PrimInt63.eqb`, `PrimInt63.int`, `PrimInt63.land`, `PrimInt63.lor`, `PrimInt63.lsl`, `PrimInt63.lsr`, `PrimInt63.sub`

2 theorems: C122_daily_mean, C122_no_observation

### `ClassicalDedekindReals.sig_forall_dec`, `ClassicalDedekindReals.sig_not_dec`, `Classical_Prop.classic`, `FloatAxioms.Prim2SF_SF2Prim`, `FloatAxioms.Prim2SF_valid`, `FloatAxioms.SF2Prim_Prim2SF`, `FloatAxioms.abs_spec`, `FloatAxioms.eqb_spec`, `FloatAxioms.leb_spec`, `FloatAxioms.mul_spec`, `FloatAxioms.opp_spec`, `FunctionalExtensionality.functional_extensionality_dep`

primitives: `PrimFloat.abs`, `PrimFloat.add`, `PrimFloat.div`, `PrimFloat.eqb`, `PrimFloat.float`, `PrimFloat.frshiftexp`, `PrimFloat.ldshiftexp`, `PrimFloat.leb`, `PrimFloat.ltb`, `PrimFloat.mul`, `PrimFloat.normfr_mantissa`, `PrimFloat.of_uint63`, `PrimFloat.opp`, `PrimFloat.sub`, `PrimInt63.eqb`, `PrimInt63.int`, `PrimInt63.land`, `PrimInt63.lor`, `PrimInt63.lsl`, `PrimInt63.lsr`, `PrimInt63.sub`

1 theorems: C124_random

### `ClassicalDedekindReals.sig_forall_dec`, `ClassicalDedekindReals.sig_not_dec`, `Classical_Prop.classic`, `FloatAxioms.Prim2SF_SF2Prim`, `FloatAxioms.Prim2SF_valid`, `FloatAxioms.SF2Prim_Prim2SF`, `FloatAxioms.abs_spec`, `FloatAxioms.add_spec`, `FloatAxioms.div_spec`, `FloatAxioms.eqb_spec`, `FloatAxioms.leb_spec`, `FloatAxioms.mul_spec`, `FunctionalExtensionality.functional_extensionality_dep`

primitives: `PrimFloat.abs`, `PrimFloat.add`, `PrimFloat.div`, `PrimFloat.eqb`, `PrimFloat.float`, `PrimFloat.frshiftexp`, `PrimFloat.ldshiftexp`, `PrimFloat.leb`, `PrimFloat.ltb`, `PrimFloat.mul`, `PrimFloat.normfr_mantissa`, `PrimFloat.of_uint63`, `PrimFloat.opp`, `PrimFloat.sub`, `PrimInt63.eqb`, `PrimInt63.int`, `PrimInt63.land`, `PrimInt63.lor`, `PrimInt63.lsl`, `PrimInt63.lsr`, `PrimInt63.sub`

3 theorems: C100_master_up_to_rounding, C100_call, C124_angstroem

### `ClassicalDedekindReals.sig_forall_dec`, `ClassicalDedekindReals.sig_not_dec`, `Classical_Prop.classic`, `FloatAxioms.Prim2SF_SF2Prim`, `FloatAxioms.Prim2SF_valid`, `FloatAxioms.SF2Prim_Prim2SF`, `FloatAxioms.abs_spec`, `FloatAxioms.add_spec`, `FloatAxioms.eqb_spec`, `FloatAxioms.leb_spec`, `FloatAxioms.mul_spec`, `FloatAxioms.sub_spec`, `FunctionalExtensionality.functional_extensionality_dep`

primitives: `PrimFloat.abs`, `PrimFloat.add`, `PrimFloat.div`, `PrimFloat.eqb`, `PrimFloat.float`, `PrimFloat.frshiftexp`, `PrimFloat.ldshiftexp`, `PrimFloat.leb`, `PrimFloat.ltb`, `PrimFloat.mul`, `PrimFloat.normfr_mantissa`, `PrimFloat.of_uint63`, `PrimFloat.opp`, `PrimFloat.sub`, `PrimInt63.eqb`, `PrimInt63.int`, `PrimInt63.land`, `PrimInt63.lor`, `PrimInt63.lsl`, `PrimInt63.lsr`, `PrimInt63.sub`

2 theorems: C102_min_max, C114_mean

### `ClassicalDedekindReals.sig_forall_dec`, `ClassicalDedekindReals.sig_not_dec`, `Classical_Prop.classic`, `FloatAxioms.Prim2SF_SF2Prim`, `FloatAxioms.Prim2SF_valid`, `FloatAxioms.SF2Prim_Prim2SF`, `FloatAxioms.abs_spec`, `FloatAxioms.div_spec`, `FloatAxioms.eqb_spec`, `FloatAxioms.leb_spec`, `FloatAxioms.ltb_spec`, `FloatAxioms.mul_spec`, `FunctionalExtensionality.functional_extensionality_dep`

primitives: `PrimFloat.abs`, `PrimFloat.add`, `PrimFloat.div`, `PrimFloat.eqb`, `PrimFloat.float`, `PrimFloat.frshiftexp`, `PrimFloat.ldshiftexp`, `PrimFloat.leb`, `PrimFloat.ltb`, `PrimFloat.mul`, `PrimFloat.normfr_mantissa`, `PrimFloat.of_uint63`, `PrimFloat.opp`, `PrimFloat.sub`, `PrimInt63.eqb`, `PrimInt63.int`, `PrimInt63.land`, `PrimInt63.lor`, `PrimInt63.lsl`, `PrimInt63.lsr`, `PrimInt63.sub`

3 theorems: C109_pot_rad, C109_mean_course, C122_dew_point

### `ClassicalDedekindReals.sig_forall_dec`, `ClassicalDedekindReals.sig_not_dec`, `Classical_Prop.classic`, `FloatAxioms.Prim2SF_SF2Prim`, `FloatAxioms.Prim2SF_valid`, `FloatAxioms.SF2Prim_Prim2SF`, `FloatAxioms.abs_spec`, `FloatAxioms.div_spec`, `FloatAxioms.eqb_spec`, `FloatAxioms.leb_spec`, `FloatAxioms.ltb_spec`, `FloatAxioms.sub_spec`, `FunctionalExtensionality.functional_extensionality_dep`

primitives: `PrimFloat.abs`, `PrimFloat.add`, `PrimFloat.div`, `PrimFloat.eqb`, `PrimFloat.float`, `PrimFloat.frshiftexp`, `PrimFloat.ldshiftexp`, `PrimFloat.leb`, `PrimFloat.ltb`, `PrimFloat.mul`, `PrimFloat.normfr_mantissa`, `PrimFloat.of_uint63`, `PrimFloat.opp`, `PrimFloat.sub`, `PrimInt63.eqb`, `PrimInt63.int`, `PrimInt63.land`, `PrimInt63.lor`, `PrimInt63.lsl`, `PrimInt63.lsr`, `PrimInt63.sub`

1 theorems: C102_normalised

### `ClassicalDedekindReals.sig_forall_dec`, `ClassicalDedekindReals.sig_not_dec`, `Classical_Prop.classic`, `FloatAxioms.Prim2SF_SF2Prim`, `FloatAxioms.Prim2SF_valid`, `FloatAxioms.SF2Prim_Prim2SF`, `FloatAxioms.abs_spec`, `FloatAxioms.eqb_spec`, `FloatAxioms.leb_spec`, `FloatAxioms.ltb_spec`, `FloatAxioms.mul_spec`, `FloatAxioms.sub_spec`, `FunctionalExtensionality.functional_extensionality_dep`

primitives: `PrimFloat.abs`, `PrimFloat.add`, `PrimFloat.div`, `PrimFloat.eqb`, `PrimFloat.float`, `PrimFloat.frshiftexp`, `PrimFloat.ldshiftexp`, `PrimFloat.leb`, `PrimFloat.ltb`, `PrimFloat.mul`, `PrimFloat.normfr_mantissa`, `PrimFloat.of_uint63`, `PrimFloat.opp`, `PrimFloat.sub`, `PrimInt63.eqb`, `PrimInt63.int`, `PrimInt63.land`, `PrimInt63.lor`, `PrimInt63.lsl`, `PrimInt63.lsr`, `PrimInt63.sub`

1 theorems: C101_five_minutes_up_to_rounding

### `ClassicalDedekindReals.sig_forall_dec`, `ClassicalDedekindReals.sig_not_dec`, `Classical_Prop.classic`, `FloatAxioms.Prim2SF_SF2Prim`, `FloatAxioms.Prim2SF_valid`, `FloatAxioms.SF2Prim_Prim2SF`, `FloatAxioms.abs_spec`, `FloatAxioms.add_spec`, `FloatAxioms.div_spec`, `FloatAxioms.eqb_spec`, `FloatAxioms.leb_spec`, `FloatAxioms.ltb_spec`, `FloatAxioms.mul_spec`, `FunctionalExtensionality.functional_extensionality_dep`

primitives: `PrimFloat.abs`, `PrimFloat.add`, `PrimFloat.div`, `PrimFloat.eqb`, `PrimFloat.float`, `PrimFloat.frshiftexp`, `PrimFloat.ldshiftexp`, `PrimFloat.leb`, `PrimFloat.ltb`, `PrimFloat.mul`, `PrimFloat.normfr_mantissa`, `PrimFloat.of_uint63`, `PrimFloat.opp`, `PrimFloat.sub`, `PrimInt63.eqb`, `PrimInt63.int`, `PrimInt63.land`, `PrimInt63.lor`, `PrimInt63.lsl`, `PrimInt63.lsr`, `PrimInt63.sub`

2 theorems: C122_minimal, C136_via_ssd

### `ClassicalDedekindReals.sig_forall_dec`, `ClassicalDedekindReals.sig_not_dec`, `Classical_Prop.classic`, `FloatAxioms.Prim2SF_SF2Prim`, `FloatAxioms.Prim2SF_valid`, `FloatAxioms.SF2Prim_Prim2SF`, `FloatAxioms.abs_spec`, `FloatAxioms.add_spec`, `FloatAxioms.div_spec`, `FloatAxioms.eqb_spec`, `FloatAxioms.leb_spec`, `FloatAxioms.ltb_spec`, `FloatAxioms.mul_spec`, `FloatAxioms.sub_spec`, `FunctionalExtensionality.functional_extensionality_dep`

primitives: `PrimFloat.abs`, `PrimFloat.add`, `PrimFloat.div`, `PrimFloat.eqb`, `PrimFloat.float`, `PrimFloat.frshiftexp`, `PrimFloat.ldshiftexp`, `PrimFloat.leb`, `PrimFloat.ltb`, `PrimFloat.mul`, `PrimFloat.normfr_mantissa`, `PrimFloat.of_uint63`, `PrimFloat.opp`, `PrimFloat.sub`, `PrimInt63.eqb`, `PrimInt63.int`, `PrimInt63.land`, `PrimInt63.lor`, `PrimInt63.lsl`, `PrimInt63.lsr`, `PrimInt63.sub`

4 theorems: C02_float_nonnegative, C03_dry_days_exactly_dry, C04_missing_days_float, C94_cascade_up_to_rounding

### `ClassicalDedekindReals.sig_forall_dec`, `ClassicalDedekindReals.sig_not_dec`, `Classical_Prop.classic`, `FloatAxioms.Prim2SF_SF2Prim`, `FloatAxioms.Prim2SF_valid`, `FloatAxioms.SF2Prim_Prim2SF`, `FloatAxioms.abs_spec`, `FloatAxioms.add_spec`, `FloatAxioms.div_spec`, `FloatAxioms.eqb_spec`, `FloatAxioms.leb_spec`, `FloatAxioms.ltb_spec`, `FloatAxioms.mul_spec`, `FloatAxioms.opp_spec`, `FloatAxioms.sub_spec`, `FunctionalExtensionality.functional_extensionality_dep`

primitives: `PrimFloat.abs`, `PrimFloat.add`, `PrimFloat.div`, `PrimFloat.eqb`, `PrimFloat.float`, `PrimFloat.frshiftexp`, `PrimFloat.ldshiftexp`, `PrimFloat.leb`, `PrimFloat.ltb`, `PrimFloat.mul`, `PrimFloat.normfr_mantissa`, `PrimFloat.of_uint63`, `PrimFloat.opp`, `PrimFloat.sub`, `PrimInt63.eqb`, `PrimInt63.int`, `PrimInt63.land`, `PrimInt63.lor`, `PrimInt63.lsl`, `PrimInt63.lsr`, `PrimInt63.sub`

3 theorems: C110_min_max, C124_bristow, C137_via_bc

### `ClassicalDedekindReals.sig_forall_dec`, `ClassicalDedekindReals.sig_not_dec`, `Classical_Prop.classic`, `FloatAxioms.Prim2SF_SF2Prim`, `FloatAxioms.Prim2SF_valid`, `FloatAxioms.SF2Prim_Prim2SF`, `FloatAxioms.abs_spec`, `FloatAxioms.div_spec`, `FloatAxioms.eqb_spec`, `FloatAxioms.leb_spec`, `FloatAxioms.of_uint63_spec`, `FloatAxioms.opp_spec`, `FunctionalExtensionality.functional_extensionality_dep`, `Uint63.add_spec`, `Uint63.eqb_correct`, `Uint63.eqb_refl`, `Uint63.leb_spec`, `Uint63.lor_spec`, `Uint63.lsl_spec`, `Uint63.lsr_spec`, `Uint63.ltb_spec`, `Uint63.of_to_Z`, `Uint63.sub_spec`

primitives: `PrimFloat.abs`, `PrimFloat.add`, `PrimFloat.div`, `PrimFloat.eqb`, `PrimFloat.float`, `PrimFloat.frshiftexp`, `PrimFloat.ldshiftexp`, `PrimFloat.leb`, `PrimFloat.ltb`, `PrimFloat.mul`, `PrimFloat.normfr_mantissa`, `PrimFloat.of_uint63`, `PrimFloat.opp`, `PrimFloat.sub`, `PrimInt63.add`, `PrimInt63.eqb`, `PrimInt63.int`, `PrimInt63.land`, `PrimInt63.leb`, `PrimInt63.lor`, `PrimInt63.lsl`, `PrimInt63.lsr`, `PrimInt63.ltb`, `PrimInt63.sub`

1 theorems: C112_sum_columns

### `ClassicalDedekindReals.sig_forall_dec`, `ClassicalDedekindReals.sig_not_dec`, `Classical_Prop.classic`, `FloatAxioms.Prim2SF_SF2Prim`, `FloatAxioms.Prim2SF_valid`, `FloatAxioms.SF2Prim_Prim2SF`, `FloatAxioms.abs_spec`, `FloatAxioms.div_spec`, `FloatAxioms.eqb_spec`, `FloatAxioms.leb_spec`, `FloatAxioms.ltb_spec`, `FloatAxioms.of_uint63_spec`, `FloatAxioms.opp_spec`, `FunctionalExtensionality.functional_extensionality_dep`, `Uint63.add_spec`, `Uint63.eqb_correct`, `Uint63.eqb_refl`, `Uint63.leb_spec`, `Uint63.lor_spec`, `Uint63.lsl_spec`, `Uint63.lsr_spec`, `Uint63.ltb_spec`, `Uint63.of_to_Z`, `Uint63.sub_spec`

primitives: `PrimFloat.abs`, `PrimFloat.add`, `PrimFloat.div`, `PrimFloat.eqb`, `PrimFloat.float`, `PrimFloat.frshiftexp`, `PrimFloat.ldshiftexp`, `PrimFloat.leb`, `PrimFloat.ltb`, `PrimFloat.mul`, `PrimFloat.normfr_mantissa`, `PrimFloat.of_uint63`, `PrimFloat.opp`, `PrimFloat.sub`, `PrimInt63.add`, `PrimInt63.eqb`, `PrimInt63.int`, `PrimInt63.land`, `PrimInt63.leb`, `PrimInt63.lor`, `PrimInt63.lsl`, `PrimInt63.lsr`, `PrimInt63.ltb`, `PrimInt63.sub`

1 theorems: C112_mean_min_max

### `ClassicalDedekindReals.sig_forall_dec`, `ClassicalDedekindReals.sig_not_dec`, `Classical_Prop.classic`, `FloatAxioms.Prim2SF_SF2Prim`, `FloatAxioms.Prim2SF_valid`, `FloatAxioms.SF2Prim_Prim2SF`, `FloatAxioms.abs_spec`, `FloatAxioms.add_spec`, `FloatAxioms.div_spec`, `FloatAxioms.eqb_spec`, `FloatAxioms.leb_spec`, `FloatAxioms.of_uint63_spec`, `FloatAxioms.opp_spec`, `FloatAxioms.sub_spec`, `FunctionalExtensionality.functional_extensionality_dep`, `Uint63.add_spec`, `Uint63.eqb_correct`, `Uint63.eqb_refl`, `Uint63.leb_spec`, `Uint63.lor_spec`, `Uint63.lsl_spec`, `Uint63.lsr_spec`, `Uint63.ltb_spec`, `Uint63.of_to_Z`, `Uint63.sub_spec`

primitives: `PrimFloat.abs`, `PrimFloat.add`, `PrimFloat.div`, `PrimFloat.eqb`, `PrimFloat.float`, `PrimFloat.frshiftexp`, `PrimFloat.ldshiftexp`, `PrimFloat.leb`, `PrimFloat.ltb`, `PrimFloat.mul`, `PrimFloat.normfr_mantissa`, `PrimFloat.of_uint63`, `PrimFloat.opp`, `PrimFloat.sub`, `PrimInt63.add`, `PrimInt63.eqb`, `PrimInt63.int`, `PrimInt63.land`, `PrimInt63.leb`, `PrimInt63.lor`, `PrimInt63.lsl`, `PrimInt63.lsr`, `PrimInt63.ltb`, `PrimInt63.sub`

1 theorems: C109_means

### `ClassicalDedekindReals.sig_forall_dec`, `ClassicalDedekindReals.sig_not_dec`, `Classical_Prop.classic`, `FloatAxioms.Prim2SF_SF2Prim`, `FloatAxioms.Prim2SF_valid`, `FloatAxioms.SF2Prim_Prim2SF`, `FloatAxioms.abs_spec`, `FloatAxioms.add_spec`, `FloatAxioms.eqb_spec`, `FloatAxioms.ltb_spec`, `FloatAxioms.mul_spec`, `FloatAxioms.of_uint63_spec`, `FloatAxioms.opp_spec`, `FloatAxioms.sub_spec`, `FunctionalExtensionality.functional_extensionality_dep`, `Uint63.add_spec`, `Uint63.eqb_correct`, `Uint63.eqb_refl`, `Uint63.leb_spec`, `Uint63.lor_spec`, `Uint63.lsl_spec`, `Uint63.lsr_spec`, `Uint63.ltb_spec`, `Uint63.of_to_Z`, `Uint63.sub_spec`

primitives: `PrimFloat.abs`, `PrimFloat.add`, `PrimFloat.div`, `PrimFloat.eqb`, `PrimFloat.float`, `PrimFloat.frshiftexp`, `PrimFloat.ldshiftexp`, `PrimFloat.leb`, `PrimFloat.ltb`, `PrimFloat.mul`, `PrimFloat.normfr_mantissa`, `PrimFloat.of_uint63`, `PrimFloat.opp`, `PrimFloat.sub`, `PrimInt63.add`, `PrimInt63.eqb`, `PrimInt63.int`, `PrimInt63.land`, `PrimInt63.leb`, `PrimInt63.lor`, `PrimInt63.lsl`, `PrimInt63.lsr`, `PrimInt63.ltb`, `PrimInt63.sub`

1 theorems: C125_any_terrain

### `ClassicalDedekindReals.sig_forall_dec`, `ClassicalDedekindReals.sig_not_dec`, `Classical_Prop.classic`, `FloatAxioms.Prim2SF_SF2Prim`, `FloatAxioms.Prim2SF_valid`, `FloatAxioms.SF2Prim_Prim2SF`, `FloatAxioms.abs_spec`, `FloatAxioms.add_spec`, `FloatAxioms.div_spec`, `FloatAxioms.eqb_spec`, `FloatAxioms.leb_spec`, `FloatAxioms.ltb_spec`, `FloatAxioms.of_uint63_spec`, `FloatAxioms.opp_spec`, `FloatAxioms.sub_spec`, `FunctionalExtensionality.functional_extensionality_dep`, `Uint63.add_spec`, `Uint63.eqb_correct`, `Uint63.eqb_refl`, `Uint63.leb_spec`, `Uint63.lor_spec`, `Uint63.lsl_spec`, `Uint63.lsr_spec`, `Uint63.ltb_spec`, `Uint63.of_to_Z`, `Uint63.sub_spec`

primitives: `PrimFloat.abs`, `PrimFloat.add`, `PrimFloat.div`, `PrimFloat.eqb`, `PrimFloat.float`, `PrimFloat.frshiftexp`, `PrimFloat.ldshiftexp`, `PrimFloat.leb`, `PrimFloat.ltb`, `PrimFloat.mul`, `PrimFloat.normfr_mantissa`, `PrimFloat.of_uint63`, `PrimFloat.opp`, `PrimFloat.sub`, `PrimInt63.add`, `PrimInt63.eqb`, `PrimInt63.int`, `PrimInt63.land`, `PrimInt63.leb`, `PrimInt63.lor`, `PrimInt63.lsl`, `PrimInt63.lsr`, `PrimInt63.ltb`, `PrimInt63.sub`

3 theorems: C120_level, C121_step, C121_statistics

### `ClassicalDedekindReals.sig_forall_dec`, `ClassicalDedekindReals.sig_not_dec`, `Classical_Prop.classic`, `FloatAxioms.Prim2SF_SF2Prim`, `FloatAxioms.Prim2SF_valid`, `FloatAxioms.SF2Prim_Prim2SF`, `FloatAxioms.abs_spec`, `FloatAxioms.add_spec`, `FloatAxioms.div_spec`, `FloatAxioms.eqb_spec`, `FloatAxioms.leb_spec`, `FloatAxioms.mul_spec`, `FloatAxioms.of_uint63_spec`, `FloatAxioms.opp_spec`, `FloatAxioms.sub_spec`, `FunctionalExtensionality.functional_extensionality_dep`, `Uint63.add_spec`, `Uint63.eqb_correct`, `Uint63.eqb_refl`, `Uint63.leb_spec`, `Uint63.lor_spec`, `Uint63.lsl_spec`, `Uint63.lsr_spec`, `Uint63.ltb_spec`, `Uint63.of_to_Z`, `Uint63.sub_spec`

primitives: `PrimFloat.abs`, `PrimFloat.add`, `PrimFloat.div`, `PrimFloat.eqb`, `PrimFloat.float`, `PrimFloat.frshiftexp`, `PrimFloat.ldshiftexp`, `PrimFloat.leb`, `PrimFloat.ltb`, `PrimFloat.mul`, `PrimFloat.normfr_mantissa`, `PrimFloat.of_uint63`, `PrimFloat.opp`, `PrimFloat.sub`, `PrimInt63.add`, `PrimInt63.eqb`, `PrimInt63.int`, `PrimInt63.land`, `PrimInt63.leb`, `PrimInt63.lor`, `PrimInt63.lsl`, `PrimInt63.lsr`, `PrimInt63.ltb`, `PrimInt63.sub`

9 theorems: C106_sine_min_max, C106_within, C106_extremes, C106_sine_mean, C107_cosine, C113_station, C127_pressure, C127_dew_point, C127_missing

### `ClassicalDedekindReals.sig_forall_dec`, `ClassicalDedekindReals.sig_not_dec`, `Classical_Prop.classic`, `FloatAxioms.Prim2SF_SF2Prim`, `FloatAxioms.Prim2SF_valid`, `FloatAxioms.SF2Prim_Prim2SF`, `FloatAxioms.abs_spec`, `FloatAxioms.add_spec`, `FloatAxioms.div_spec`, `FloatAxioms.eqb_spec`, `FloatAxioms.ltb_spec`, `FloatAxioms.mul_spec`, `FloatAxioms.of_uint63_spec`, `FloatAxioms.opp_spec`, `FloatAxioms.sub_spec`, `FunctionalExtensionality.functional_extensionality_dep`, `Uint63.add_spec`, `Uint63.eqb_correct`, `Uint63.eqb_refl`, `Uint63.leb_spec`, `Uint63.lor_spec`, `Uint63.lsl_spec`, `Uint63.lsr_spec`, `Uint63.ltb_spec`, `Uint63.of_to_Z`, `Uint63.sub_spec`

primitives: `PrimFloat.abs`, `PrimFloat.add`, `PrimFloat.div`, `PrimFloat.eqb`, `PrimFloat.float`, `PrimFloat.frshiftexp`, `PrimFloat.ldshiftexp`, `PrimFloat.leb`, `PrimFloat.ltb`, `PrimFloat.mul`, `PrimFloat.normfr_mantissa`, `PrimFloat.of_uint63`, `PrimFloat.opp`, `PrimFloat.sub`, `PrimInt63.add`, `PrimInt63.eqb`, `PrimInt63.int`, `PrimInt63.land`, `PrimInt63.leb`, `PrimInt63.lor`, `PrimInt63.lsl`, `PrimInt63.lsr`, `PrimInt63.ltb`, `PrimInt63.sub`

15 theorems: C125_flat, C125_flat_exact, C125_nan, C125_night, C126_range, C126_near, C126_midnight_sun, C126_polar_night, C129_hours, C130_shift, C130_then_hours, C134_number, C134_flat, C135_slope, C135_series

### `ClassicalDedekindReals.sig_forall_dec`, `ClassicalDedekindReals.sig_not_dec`, `Classical_Prop.classic`, `FloatAxioms.Prim2SF_SF2Prim`, `FloatAxioms.Prim2SF_valid`, `FloatAxioms.SF2Prim_Prim2SF`, `FloatAxioms.abs_spec`, `FloatAxioms.add_spec`, `FloatAxioms.div_spec`, `FloatAxioms.eqb_spec`, `FloatAxioms.leb_spec`, `FloatAxioms.ltb_spec`, `FloatAxioms.mul_spec`, `FloatAxioms.of_uint63_spec`, `FloatAxioms.opp_spec`, `FloatAxioms.sub_spec`, `FunctionalExtensionality.functional_extensionality_dep`, `Uint63.add_spec`, `Uint63.eqb_correct`, `Uint63.eqb_refl`, `Uint63.leb_spec`, `Uint63.lor_spec`, `Uint63.lsl_spec`, `Uint63.lsr_spec`, `Uint63.ltb_spec`, `Uint63.of_to_Z`, `Uint63.sub_spec`

primitives: `PrimFloat.abs`, `PrimFloat.add`, `PrimFloat.div`, `PrimFloat.eqb`, `PrimFloat.float`, `PrimFloat.frshiftexp`, `PrimFloat.ldshiftexp`, `PrimFloat.leb`, `PrimFloat.ltb`, `PrimFloat.mul`, `PrimFloat.normfr_mantissa`, `PrimFloat.of_uint63`, `PrimFloat.opp`, `PrimFloat.sub`, `PrimInt63.add`, `PrimInt63.eqb`, `PrimInt63.int`, `PrimInt63.land`, `PrimInt63.leb`, `PrimInt63.lor`, `PrimInt63.lsl`, `PrimInt63.lsr`, `PrimInt63.ltb`, `PrimInt63.sub`

11 theorems: C120_statistics, C120_hourly, C120_five_minutes, C121_averaged, C127_humidity, C128_linear, C129_temperatures, C129_sine_mean, C133_clear_sky, C134_clear_sky, C136_clear_sky

## 6. How to read seeded/LOG.jsonl

Each line is one deliberate error put into the model in a scratch copy.

- `failed` lists the theorems whose proof no longer builds, or rests on a lemma whose proof no longer builds. It is measured by a script: failing proofs are replaced by `Admitted` and `Print Assumptions` shows who depends on them.
- `failed` is therefore an upper bound. A theorem can be listed because it shares a lemma with others although its own statement is still true of the edited model. Example: the edit "287 steps per day" of `fmin_index_gen` lists `C97_equally_spaced_refuted`, which does not speak about `fmin_index` and is only proved through `C97_gaps`.
- So an entry with a non-empty `failed` does not alone show that the property excludes the error. A theorem that still builds (a survivor) is reliable information; these were tightened.
- `falsified` (from the fifth batch on) names theorems of the claimed property whose statement is false of the edited model, decided by reading statement and edit, not by a proof. The first 194 entries do not have this field and were not re-examined in this way.
- Entries with a non-empty `failed` but an empty `falsified` are gaps found only by reading: the proofs broke, yet no statement had become false. The theorem under `tightened` was added for them.
- Edits made by a script (constants, comparisons, exception classes) are logged only when they went unnoticed and change something a property speaks about. Edits without effect (a default that is never reached, reversing a one-element list) are left out.
- A control run with an edit that only adds a comment (IndexModel) gave no failed theorem.
