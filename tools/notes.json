{
 "C01": {
  "note": "exact extended reals; every statistics argument, also malformed ones"
 },
 "C02": {
  "note": "binary64 via primitive floats and Flocq; amounts up to 2^900, fewer than 2^46 days"
 },
 "C03": {
  "note": "binary64"
 },
 "C04": {
  "note": "exact and binary64"
 },
 "C05": {
  "note": "any arithmetic"
 },
 "C06": {
  "note": "any arithmetic"
 },
 "C07": {
  "note": "cascade_steps in SpecCascade.v describes draws consumed, table cell, class and halves of every box"
 },
 "C09": {
  "note": "negative result: witnesses"
 },
 "C12": {
  "note": "binary64; per-level list and single object spelled out for the five hourly levels"
 },
 "C21": {
  "note": "needs Series.iteritems; the second theorem covers pandas without it"
 },
 "C24": {
  "note": "both generations of pandas"
 },
 "C67": {
  "note": "negative result about the documented argument type"
 },
 "C13": {
  "note": "structure for any arithmetic; total in exact arithmetic"
 },
 "C14": {
  "note": "exact arithmetic; missing values allowed"
 },
 "C15": {
  "note": "exact arithmetic"
 },
 "C16": {
  "note": "exact characterisation of the returned tables as relative frequencies; np.percentile modelled for integer percentages, linear interpolation"
 },
 "C17": {
  "note": "exact: only tables whose sums all vanish are rejected"
 },
 "C18": {
  "note": "exact arithmetic, heap model"
 },
 "C19": {
  "note": "heap model with aliasing; any arithmetic"
 },
 "C20": {
  "note": "any arithmetic; the two dependence theorems are binary64 witnesses"
 },
 "C23": {
  "note": "strictly ascending index"
 },
 "C69": {
  "note": "exact arithmetic"
 },
 "C26": {
  "note": "count, equidistance, AttributeError on pandas without Timedelta.delta"
 },
 "C27": {
  "note": "exact block for sorted frames; single-row deviation"
 },
 "C28": {
  "note": "exact extended reals, at the level of daily_from_hourly frames"
 },
 "C29": {
  "note": "columns of finite and missing values"
 },
 "C30": {
  "note": "records of finite and missing values"
 },
 "C31": {
  "note": "exact reals; temperatures above 0.53 K (the formula has a pole at 0.53 K)"
 },
 "C32": {
  "note": "exact reals; inverse law refuted across the freezing point"
 },
 "C33": {
  "note": "exact reals"
 },
 "C66": {
  "note": "exact reals; AttributeError on pandas without Series.append"
 },
 "C70": {
  "note": "any index"
 },
 "C34": {
  "note": "exact real arithmetic; all options for the times of minimum and maximum; days of at least 3 h"
 },
 "C35": {
  "note": "exact real arithmetic; witness for the missed minimum"
 },
 "C36": {
  "note": "exact real arithmetic"
 },
 "C37": {
  "note": "second theorem: courses computed from hourly data have the required form when all 24 hours of the months were observed and the mean course is not constant"
 },
 "C40": {
  "note": "raises for every pandas version; the unreachable remainder of the branch is not modelled"
 },
 "C71": {
  "note": "negative result"
 },
 "C72": {
  "note": "negative result"
 },
 "C42": {
  "note": "negative result"
 },
 "C74": {
  "note": "negative result"
 },
 "C75": {
  "note": "negative result"
 },
 "C43": {
  "note": "exact real arithmetic; the zenith case (excluded by the property) is shown to give NaN"
 },
 "C45": {
  "note": "scipy fits are arbitrary functions that may raise"
 },
 "C46": {
  "note": "exact reals, and binary64 for arbitrary saturation-pressure and sine functions"
 },
 "C77": {
  "note": "negative result"
 },
 "C51": {
  "note": "includes the witness that the daily mean is not preserved"
 },
 "C78": {
  "note": "the fit itself (scipy.optimize.curve_fit) is not modelled, only the rows handed to it"
 },
 "C52": {
  "note": "worlds of stations and statistics objects with references; the fitting routines are arbitrary functions"
 },
 "C80": {
  "note": "current pandas (Index.to_datetime removed)"
 },
 "C81": {
  "note": "exact reals, shift 0; success is a hypothesis, shown reachable by C81_met"
 },
 "C57": {
  "note": "JSON values (trees) as exchanged with json.dump/json.load; the text layer and its float printing are trusted to be exact for doubles"
 },
 "C58": {
  "note": "at exact reals; pandas' to_json with double_precision=10 is modelled as rounding to ten decimals, the JSON text layer is trusted"
 },
 "C59": {
  "note": "object heap with dict objects whose __dict__ slot is the dict itself; keys that are attributes of dict are the exception shown by C59_reserved_refuted"
 },
 "C60": {
  "note": "string level; values exact reals and infinities; frames and headers restricted by frame_ok and header_ok (SpecSmet); pandas to_string and read_table are modelled, not verified; read_smet succeeds only with pandas that allows del index.name"
 },
 "C61": {
  "note": "same restrictions as C60; time stamps cut to days"
 },
 "C62": {
  "note": "headers restricted by header_ok: distinct keys, single lines, no quotes; C62_header also needs keys that differ after stripping"
 },
 "C63": {
  "note": "the error is NameError before Python 3.12 (comprehension scope) and UnboundLocalError after; the model uses the latter"
 },
 "C86": {
  "note": "same restrictions as C60; the reading half uses pandas that allows del index.name"
 },
 "C64": {
  "note": "records instead of CSV text; date text of eight digits; the pandas CSV reader and the order of glob are outside the model"
 },
 "C65": {
  "note": "for every function from lines to tables in place of pandas.read_csv"
 },
 "C87": {
  "note": "for every function from lines to tables in place of pandas.read_csv"
 },
 "C88": {
  "note": "times without repetition within a file; pandas' outer join is modelled, not verified"
 },
 "C89": {
  "note": "fitting routines are parameters; is_pairs (regression pairs) for complete hourly indices; for the percentile of the cascade statistics numpy's linear percentile is modelled"
 },
 "C90": {
  "note": "the residual bound of the fit is a hypothesis on the fitting routine"
 },
 "C91": {
  "note": "exact reals"
 },
 "C92": {
  "note": "least squares is a hypothesis on the regression routine (LinReg.ols shows it can be met); exact reals; temperatures above 0.53 K"
 },
 "C93": {
  "note": "exact reals; integer percentile 0..100; record index strictly increasing; draws above 1 - 10^-15 are excluded because the default tables sum up to slightly less than 1 (C09)"
 },
 "C94": {
  "status": "proved",
  "note": "binary64 through Flocq; the sums on the left-hand side are exact sums of the returned doubles"
 },
 "C95": {
  "note": "Exact arithmetic; the scipy fit is any function whose residuals are at most eps. Examples: a station on the equator with 12 hour days, uncalibrated and calibrated."
 },
 "C96": {
  "note": "Exact arithmetic. The minimiser is any function with the stated bias; the example uses one that is exact on single days."
 },
 "C97": {
  "note": "Daily stamps at midnight. C97_equally_spaced_refuted shows the deviation at level 8. That current pandas also drops the frequency alias 'L' of fmin_index is not modelled."
 },
 "C98": {
  "note": "Random draws are an argument of each call; with numpy's global generator the draws themselves depend on the order of calls. C98_order_refuted is the witness for stations without sun times."
 },
 "C99": {
  "note": "Exact arithmetic; the tables are compared with a second copy generated from the text of cascade.py. C99_distributions_refuted: some cells do not add up to 1 exactly."
 },
 "C100": {
  "note": "binary64. Master values must be complete on the day considered; the summation order of pandas is left open. C100_exact_refuted is the witness that the amount is not kept exactly."
 },
 "C101": {
  "note": "binary64. kahan in FiveModel is a model of the summation in pandas, not code of the repository; the theorem only needs sums_within."
 },
 "C102": {
  "note": "binary64. C102_same_formula ties the generic function to the modelled disaggregate_temperature. C102_maximum_refuted is the witness above tmax."
 },
 "C103": {
  "note": "The by-position reading is precip_master_station_pos; the by-label one is the model of C21/C100. Which of the two applies depends on the installed pandas; versions without iteritems raise before (C21_current_pandas)."
 },
 "C104": {
  "note": "C104_same_outcome for every number type; sums over the reals. Test mode is the separate definition disagg_prec_cascade_test, tied to the ordinary one by C104_same_outcome."
 },
 "C105": {
  "note": "Exact arithmetic for the values; the rejected levels for every number type. C105_rows_absent is the deviation at the end of the index."
 },
 "C106": {
  "note": "Doubles via Flocq; the cosine is any function of the stated accuracy (the correctly rounded one is shown to be such a function), the hours of minimum and maximum are given integers. C106_same_formula ties the formulas to the model of C34-C40."
 },
 "C107": {
  "note": "Doubles via Flocq; cosine as in C106. C107_same_formula ties the formula to the model of C50."
 },
 "C108": {
  "note": "Exact arithmetic. last_call names the deciding call; that a call fails in the session exactly when it fails on the untouched station is C98_anywhere. Humidity: the min_max method without preserving the mean."
 },
 "C109": {
  "note": "Doubles via Flocq; the mean is any function with the stated error, shown for every order of additions and for compensated summation (C109_means). C109_same_formula ties the formula to the model of C38 to C41."
 },
 "C110": {
  "note": "binary64 via Flocq; temperatures of modest size, hours at most twice the daily range above the daily minimum; C110_minimum_refuted shows the daily minimum of humidity is not a lower bound."
 },
 "C111": {
  "note": "The order in which a missing frame and a wrong name are noticed is not represented; either way the call raises."
 },
 "C112": {
  "note": "How pandas adds is left open: any order of the additions, or compensated summation as in its groupby kernels, is covered. Negative values and days with more than 24 records are outside the bounds stated."
 },
 "C113": {
  "note": "np.interp is read as slope * distance + left value, each operation rounded once (no fused multiply-add)."
 },
 "C114": {
  "note": "The mean of the course is left open (means_within); Kahan sums and any order of plain additions meet it."
 },
 "C115": {
  "note": "pandas.read_table is modelled as tokenizer by blanks; cells are plain decimals (no exponents), time stamps YYYY-MM-DDThh:mm, no quotation marks."
 },
 "C116": {
  "note": "Frames assigned by the program are assumed to be frames as pandas allows them (columns as long as the index; an index with a frequency has no repeated stamps)."
 },
 "C117": {
  "note": "Exact arithmetic; the station's sun times are known."
 },
 "C118": {
  "note": "Success for temperature is stated for sun times with at least three hours of daylight (see C40 for the others) and monthly shifts that are numbers; for radiation without supplied potential radiation, with sun times of the same days and parameter tables for all months. Success of 'cascade' and 'masterstation' is the subject of C79-C83 and C88-C89."
 },
 "C119": {
  "note": "Daily data given to calc_radiation_stats cover consecutive days; the records hold no infinities for wind; scipy's routines are arbitrary functions that may raise."
 },
 "C120": {
  "note": "np.percentile is an arbitrary function that raises for an empty array. The range of the observations excludes quotients that underflow."
 },
 "C121": {
  "note": "Counts over pairs of observations in SpecCountRound, independent of the loop; np.percentile is an arbitrary function (raising for an empty array in C121_averaged)."
 },
 "C122": {
  "note": "The mean is a parameter (means_within); C122_same_formula shows that the modelled function is the instance with nanmean. The vapour pressure is an arbitrary function."
 },
 "C123": {
  "note": "BuildRecordModel is build_casc with the caller's column as part of the outcome; C123_same_function shows that it is the function the other properties speak of."
 },
 "C124": {
  "note": "The functions exp, log, power and mean are parameters with the stated accuracy or monotonicity; C124_exp_exists, C124_pow_exists, C124_functions_exist and C124_mean_exists exhibit such functions (the correctly rounded ones)."
 },
 "C125": {
  "note": "Sine, cosine, arc sine and arc cosine are parameters; only sine and cosine need to be accurate. C125_functions_exist exhibits the correctly rounded ones."
 },
 "C126": {
  "note": "Sine, cosine, tangent and arc cosine are parameters; C126_functions_exist exhibits such functions. Between 0.999 and 1 + 1e-10 in size of the exact cosine only C126_range speaks (the arc cosine is badly conditioned there)."
 },
 "C127": {
  "note": "Exponential function and logarithm are parameters; C127_functions_exist exhibits such functions. A double t counts as water when t >= the double next to 273.15, as in the code."
 },
 "C128": {
  "note": "Exponential function and sine are parameters; C128_met exhibits such functions."
 },
 "C129": {
  "note": "Rounding, integer conversion and trigonometric functions are parameters; C129_functions_exist exhibits the former. C129_met: at 45 degrees north all days qualify."
 },
 "C130": {
  "note": "Trigonometric functions and the mean of a month are parameters; C130_mean_exists exhibits such a mean."
 },
 "C131": {
  "note": "Completes C118, which assumes numbers in the table."
 },
 "C132": {
  "note": "Sum and mean are parameters; C132_total_exists shows that adding from left to right is such a sum, C130_mean_exists exhibits such a mean."
 },
 "C133": {
  "note": "The trigonometric functions and pandas' mean are parameters; C125_functions_exist and C109_means exhibit such functions."
 },
 "C134": {
  "note": "Nothing is claimed for the sun due east or west, where the arc sine's argument is 1 up to rounding. C134_functions_exist exhibits functions as required."
 },
 "C135": {
  "note": "Closer to east and west the error grows without bound of this size; there only C134 and C125_any_terrain speak. C135_arcsine_exists and C134_functions_exist exhibit functions as required."
 },
 "C136": {
  "note": "C136_same_formula ties the model for any kind of number to the exact model. C136_clear_sky asks, like C133, that no computed potential value of the day is missing and that the clear-sky mean is at least 1 W/m2."
 },
 "C137": {
  "note": "C137_same_formula ties the model for any kind of number to the exact model; C137_functions_exist exhibits functions as required."
 },
 "C138": {
  "note": "Deviation: missing sun times are not reported."
 },
 "C139": {
  "note": ""
 },
 "C140": {
  "note": "The correction of humidity to the daily mean (preserve_daily_mean) is covered for all methods of humidity but 'month_hour_precip_mean', where the claim is for results without it."
 }
}