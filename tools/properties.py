#!/usr/bin/env python3
"""Source of /verif/properties.jsonl (run: python3 tools/properties.py)."""
import json, os
P = []
def prop(id, title, statement, quantifier, why, anchors):
    P.append(dict(id=id, title=title, statement=statement, quantifier=quantifier,
                  why_tests_cant=why, anchors=anchors))

PR = "melodist/precipitation.py"; UT = "melodist/util/util.py"; CA = "melodist/cascade.py"
TE = "melodist/temperature.py"; RA = "melodist/radiation.py"; HU = "melodist/humidity.py"
WI = "melodist/wind.py"; ST = "melodist/station.py"; SS = "melodist/stationstatistics.py"
IO = "melodist/data_io.py"; BU = "melodist/util/bunch.py"

# ---------------------------------------------------------------- precipitation: cascade
prop("C01", "Cascade disaggregation conserves the daily total",
 "Whenever disagg_prec_cascade (hourly) returns a series for a gap-free midnight-indexed daily series of non-negative (or missing) amounts, the 24 hourly values of every non-missing day are non-negative and add up to exactly that day's amount (real arithmetic, i.e. no rounding).",
 "every daily series (any length, any amounts), every set of cascade statistics (valid or not, single object or per-level list), every sequence of random draws",
 "The result depends on an unbounded random stream and on unbounded data; the test suite checks one data set and one random realisation with atol=1e-3.",
 [f"{PR}:disagg_prec_cascade"])
prop("C02", "Cascade output is never negative in IEEE double arithmetic",
 "With binary64 arithmetic exactly as numpy performs it (round-to-nearest, running cumsum, differences of cumsums), every hourly value returned by disagg_prec_cascade for finite non-negative daily amounts (bounded by 2^900, fewer than 2^46 days) is a finite number >= 0 (or NaN exactly on missing days).",
 "every daily series of doubles, all statistics, all draws",
 "Differences of running sums are a classic source of tiny negative rain; only a proof over all double inputs excludes it.",
 [f"{PR}:disagg_prec_cascade"])
prop("C03", "Dry days stay exactly dry",
 "A day whose amount is 0.0 gets 24 hourly values that are exactly 0.0 in binary64 arithmetic, whatever happens on the other days.",
 "every daily series of bounded non-negative doubles, all statistics, all draws, every dry day",
 "The hourly values come from a cumulative sum over the whole series, so leakage from earlier days could only be found on particular inputs.",
 [f"{PR}:disagg_prec_cascade"])
prop("C04", "Missing days come back as 24 missing hours and only those",
 "In the output of disagg_prec_cascade (shift=0) an hour is NaN if and only if the daily amount of its day was NaN, and replacing a missing amount by 0 changes no hour of any other day.",
 "every daily series with any pattern of missing values, all statistics, all draws",
 "Ranges over all missing-value patterns.",
 [f"{PR}:disagg_prec_cascade"])
prop("C05", "Cascade output covers every hour of every input day once, in order",
 "For a gap-free midnight-indexed daily series of n >= 2 days the hourly cascade result (when one is returned) has exactly the 24*n hourly time stamps from the first day 00:00 to the last day 23:00, ascending, each once; with fewer than two days ValueError is raised; with daily time stamps at any hour from 1 to 23 no series is returned (the hourly index comes out too short).",
 "every series length, every start date, every number type (holds for any arithmetic)",
 "Quantifies over all lengths and dates.",
 [f"{PR}:disagg_prec_cascade", f"{UT}:hourly_index"])
prop("C06", "shift moves the hourly series by whole steps",
 "disagg_prec_cascade(..., shift=k) returns the shift=0 result for the same draws with the same time stamps and with value j+k taken from position j, NaN elsewhere (both signs of k, also |k| larger than the series).",
 "every series, every integer shift, all statistics and draws",
 "All shifts, all lengths.", [f"{PR}:disagg_prec_cascade"])
prop("C07", "The branching decision follows the probability table",
 "For a wet box and draw u: (0,x) is produced iff u <= P(0/1); otherwise (x,0) iff u <= P(0/1)+P(1/0); otherwise the box is split into w and 1-w with w one of the seven class centres, chosen as the first class whose cumulative weight is >= a fresh second draw. The box's own type (starting/enclosed/ending/isolated, from its neighbours) and its volume class (above/below the level threshold) select the table cell. The 'error' early return (None) is unreachable.",
 "every box position, every neighbour configuration, every table, every draw; binary64 and exact",
 "All table/draw combinations including boundary equality.", [f"{PR}:disagg_prec_cascade", f"{CA}:BoxTypes"])
prop("C08", "Well-formed statistics never make the cascade fail",
 "If every cell's cumulative weight reaches at least every possible draw (>= 1), the threshold vector covers the levels and amounts are non-negative or missing, disagg_prec_cascade returns a series for every draw sequence.",
 "every series of >= 2 days, all such statistics, all draws",
 "A failure would need one specific random draw out of 2^53.", [f"{PR}:disagg_prec_cascade"])
prop("C09", "Rounded weights can make the cascade crash (deviation)",
 "With the statistics the library itself ships (fill_with_sample_data) and also with the 1/7 default weights that aggregate_precipitation fills in, the binary64 cumulative weight of some cells is below the largest possible draw 1-2^-53; there are valid draws for which disagg_prec_cascade raises UnboundLocalError, and draws for which it silently reuses the weight of an unrelated earlier box.",
 "existence of input and draws (witness), in binary64; complements C08",
 "The failing draw has probability 2^-53 per box; random tests will not meet it.", [f"{PR}:disagg_prec_cascade", f"{CA}:CascadeStatistics.fill_with_sample_data", f"{PR}:aggregate_precipitation"])
prop("C10", "Argument errors of the cascade are rejected before any random number is drawn",
 "disagg_prec_cascade raises ValueError for fewer than two days, ValueError for a statistics list whose length differs from the number of levels, TypeError for any other options type, IndexError when a single statistics object has too few thresholds; disagg_prec raises ValueError for any unknown method name.",
 "every argument combination", "All lengths and strings.", [f"{PR}:disagg_prec_cascade", f"{PR}:disagg_prec"])
prop("C11", "5-minute cascade conserves the daily total",
 "disagg_prec_cascade(hourly=False, level) for a gap-free midnight-indexed series of non-negative amounts returns 288 5-minute values per day, non-negative, adding up to the daily amount (exact arithmetic), for levels 9, 10 and 11.",
 "every series, all statistics (single with enough thresholds, or lists), all draws, levels 9, 10, 11",
 "Unbounded data and draws.", [f"{PR}:disagg_prec_cascade", f"{PR}:sub_level_index"])
prop("C12", "Every level of the cascade uses the statistics of its own level",
 "With a list of per-level statistics, the step that splits days uses the last list element, the next one the one before, ..., the finest step the first one (matching the order in which build_casc produces them); with a single object the thresholds are consumed in the same order.",
 "all lists, all series, all draws", "Order errors are invisible in aggregate statistics of one realisation.", [f"{PR}:disagg_prec_cascade", f"{PR}:build_casc"])
# ---------------------------------------------------------------- aggregation
prop("C13", "Aggregation sums disjoint pairs",
 "aggregate_precipitation returns a series of floor(n/2) values whose j-th value is x[2j]+x[2j+1] stamped with the time of x[2j+1]; for even n the total is unchanged (exact arithmetic).",
 "every input series", "All lengths and values.", [f"{PR}:aggregate_precipitation"])
prop("C14", "Branching probabilities form a probability distribution in every cell",
 "For non-negative data, whenever aggregate_precipitation does not fall back to default statistics, P(0/1), P(1/0), P(x/x) of each of the 8 cells are >= 0 and sum to 1 (exact arithmetic); in the fallback case the three tables are exactly the shipped sample tables.",
 "every non-negative input series, every percentile", "All data sets.", [f"{PR}:aggregate_precipitation", f"{CA}:CascadeStatistics.fill_with_sample_data"])
prop("C15", "Weight histograms form a probability distribution in every cell",
 "For non-negative data the seven weights of each cell returned by aggregate_precipitation (when probabilities are not replaced by defaults) are >= 0 and sum to 1 (exact arithmetic); cells without any x/x branching get 1/7 each.",
 "every non-negative input series", "All data sets.", [f"{PR}:aggregate_precipitation"])
prop("C16", "Default fallback happens exactly when a cell was never observed, and keeps the threshold",
 "aggregate_precipitation returns the shipped sample tables iff some (volume class, box type) cell contains no wet box; the returned threshold is in every case the percentile of the wet aggregated values.",
 "every input series", "All data sets.", [f"{PR}:aggregate_precipitation"])
prop("C17", "The weight plausibility check never rejects anything (deviation)",
 "The test `wxx.any() > 1.001 or wxx.any() < 0.999` that is meant to detect weights not summing to 1 is never true after NaN weights have been replaced by 1/7: whatever the weights, they are accepted.",
 "every weight table containing at least one replaced entry", "Needs a universal argument over all tables.", [f"{PR}:aggregate_precipitation"])
prop("C18", "Averaged statistics are probabilities again",
 "build_casc(avg_stats=True) on non-negative data: in every cell the averaged P(0/1)+P(1/0)+P(x/x) equals 1 and the averaged weights sum to 1 whenever those of all levels do, entries stay in [0,1]; thresholds[i] is the threshold of level i.",
 "every list of per-level statistics and level lengths (count > 0)", "All data sets.", [f"{PR}:build_casc", f"{CA}:CascadeStatistics.__add__", f"{CA}:CascadeStatistics.__mul__"])
prop("C19", "Per-level statistics returned by build_casc are not disturbed by the averaging",
 "build_casc(avg_stats=False) returns for every level exactly the statistics computed by aggregate_precipitation for that level, although the same objects are afterwards scaled and added in place: the shallow copies alias no array that is mutated later.",
 "every number of levels, every statistics content (heap model with aliasing)", "Aliasing bugs depend on object identity, invisible for values that happen to coincide.", [f"{PR}:build_casc", f"{CA}:CascadeStatistics.__mul__", f"{CA}:CascadeStatistics.__add__"])
prop("C20", "build_casc overwrites the caller's missing values and uses them inconsistently (deviation)",
 "After build_casc the caller's observation frame has every missing precipitation value replaced by 0; the first season is evaluated on the data with missing values, all later seasons on the zero-filled data, so the statistics of a season can depend on its position in the list and on how often build_casc was called before.",
 "every observation series; witness for the dependence", "Needs the comparison of two histories for all inputs.", [f"{PR}:build_casc", f"{SS}:StationStatistics.calc_precipitation_stats"])
# ---------------------------------------------------------------- other precipitation methods
prop("C21", "Master-station disaggregation preserves the daily total and the master's pattern",
 "If the master station has 24 values on a day with non-zero sum, the hourly result is proportional to the master's values and sums to the daily amount; if the sum is zero, 'uniform' gives daily/24 each hour and any other zerodiv gives 0. A day without any master value between the master's first and last day is treated like a zero sum; a day before or after the master's record raises KeyError for the whole call.",
 "every daily series, every master series, every zerodiv", "All master patterns.", [f"{PR}:precip_master_station"])
prop("C22", "Equal distribution of precipitation preserves the daily total",
 "disagg_prec(method='equal') gives every hour of a day the daily amount divided by 24 (NaN for missing days), so that 24 hours sum to the daily amount in exact arithmetic; shift and statistics arguments are ignored.",
 "every gap-free daily series over any number of months and years", "Spans over month/year boundaries of every length.", [f"{PR}:disagg_prec", f"{UT}:distribute_equally"])
prop("C23", "seasonal_subset selects exactly the requested months",
 "seasonal_subset(df, months) returns, in chronological order, exactly the rows whose month is in months ('all' = the whole series); listing the 12 months in any grouping partitions the series; an empty month list raises.",
 "every chronological series, every list of distinct months", "All calendars.", [f"{PR}:seasonal_subset"])
# ---------------------------------------------------------------- util
prop("C24", "hourly_index is complete and exact",
 "For a daily index at midnight without gaps hourly_index returns the strictly ascending list of all 24 hours of exactly these days; for an index with gaps it returns exactly the hours of the listed days on pandas versions that still provide Index.to_datetime/pd.datetime and raises AttributeError on current ones.",
 "every daily index", "All spans and gap patterns.", [f"{UT}:hourly_index"])
prop("C25", "distribute_equally gives each hour the value of its own day",
 "For any gap-free midnight daily series (spanning any number of months, any missing values) every hour of the result carries exactly its own day's value (divided by 24 if requested); missing days stay missing: no value leaks to the same day-of-month of another month although grouping is by day of month.",
 "every daily series, any arithmetic (also binary64)", "The grouping key repeats every month; leakage needs particular missing-value patterns over several months.", [f"{UT}:distribute_equally"])
prop("C26", "detect_gaps counts exactly the irregular steps",
 "On pandas versions where Timedelta.delta exists, detect_gaps returns the number of consecutive index pairs whose difference is not the given time step, independent of all printing options; 0 iff the index is equidistant. On current pandas it raises AttributeError for any frame with two or more rows.",
 "every index, time step and print option", "All indices.", [f"{UT}:detect_gaps"])
prop("C27", "drop_incomplete_days: what is removed, and when an incomplete day survives (deviation)",
 "The result is a contiguous block of the input rows. If some row is stamped first:00 and a later row last:00, the result starts with the first row stamped first:00 and ends with the last row stamped last:00. A frame that starts at first:00 and contains no last:00 row is reduced to its first row, which is not a full day, contrary to the documented 'full days only'.",
 "every ascending hourly index without duplicates, every shift", "All start/end hour combinations.", [f"{UT}:drop_incomplete_days"])
prop("C28", "Aggregating an equal disaggregation gives the daily values back",
 "daily_from_hourly(distribute_equally(daily, divide=True)) reproduces daily precipitation sums, and without divide reproduces daily means, for non-missing days; a missing precipitation day comes back as 0, not as missing.",
 "every gap-free daily series", "Round trip over all series.", [f"{UT}:daily_from_hourly", f"{UT}:distribute_equally"])
prop("C29", "daily_from_hourly orders minimum, mean and maximum",
 "For every day with at least one valid hour daily_from_hourly yields tmin <= mean <= tmax, and tmin/tmax are attained by an hour of that day. The other columns hold the mean (glob, hum, wind), the sum (precip), the extremes (hum_min, hum_max) or the sum of minutes in hours (ssd) of the day's valid values; only columns whose source is present appear. A recorded day without a valid hour is missing, except that its precipitation and sunshine duration are 0 (deviation).",
 "every hourly series", "All series.", [f"{UT}:daily_from_hourly"])
prop("C30", "Normalised mean courses span exactly [0,1]",
 "calculate_mean_daily_course_by_month(normalize=True): for every month with at least two different hourly means all values lie in [0,1] and both 0 and 1 are attained; a month with a constant course yields only NaN. Normalised or not, the table has exactly the months and the hours that occur in the record, ascending, and an hour without values in a month is NaN there.",
 "every hourly series", "All series.", [f"{UT}:calculate_mean_daily_course_by_month"])
prop("C31", "Vapour pressure is positive, linear in humidity, increasing in temperature and continuous at 0 C",
 "vapor_pressure(T,h) over real arithmetic: proportional to h, > 0 for h > 0, strictly increasing in T on each side of 273.15 K and across it for T > 0 K physical range, equal to 6.112*h/100 at 273.15 K from both branches; NaN temperature gives NaN.",
 "every temperature above the singularities, every humidity", "Continuum.", [f"{UT}:vapor_pressure"])
prop("C32", "Dew point is the inverse of vapour pressure and never exceeds the temperature",
 "dewpoint_temperature(T,100) = T; for 0 < h <= 100 it is <= T; vapor_pressure(dewpoint,100) = vapor_pressure(T,h) whenever T and the dew point lie on the same side of 273.15 K (and can differ otherwise).",
 "every physical T and h", "Continuum.", [f"{UT}:dewpoint_temperature", f"{UT}:vapor_pressure"])
prop("C33", "Sun times: day length within [0,24], noon in the middle",
 "get_sun_times: for |lat| < 90 and every date 0 <= daylength <= 24 and finite; daylength = 24 exactly under midnight sun, 0 in polar night; before the wrap to [0,24) solar noon is the midpoint of sunrise and sunset; after the wrap sunset - sunrise equals daylength up to a multiple of 24.",
 "every day of year, latitude, longitude, time zone", "Continuum.", [f"{UT}:get_sun_times"])
# ---------------------------------------------------------------- temperature
prop("C34", "Sine method: every hourly temperature stays between neighbouring extremes",
 "disaggregate_temperature('sine_min_max') without night-time modification: every hour of a day lies between min(tmin today, tmin next day) and max(tmax previous day, tmax today), given tmin<=tmax across adjacent days.",
 "every daily series, every min/max location", "Continuum of inputs.", [f"{TE}:disaggregate_temperature"])
prop("C35", "Sine method attains tmax at the time of maximum and tmin 12 h before it; the day's minimum can still be missed (deviation)",
 "At hour max_loc (min_loc <= max_loc <= 23) the value is exactly the day's tmax and at hour max_loc-12 (if 0 <= max_loc-12 ) exactly the day's tmin; but hours after max_loc use the next day's tmin, so the smallest hourly value of a day can be below the day's tmin.",
 "every daily series; witness for the deviation", "Continuum.", [f"{TE}:disaggregate_temperature"])
prop("C36", "sine_mean preserves the daily mean and the diurnal range",
 "disaggregate_temperature('sine_mean'): the mean of the 24 values equals the daily mean exactly and max-min equals tmax-tmin (tmax>=tmin), for every integer time of maximum.",
 "every daily series, every integer max_loc", "Continuum.", [f"{TE}:disaggregate_temperature"])
prop("C37", "mean_course_min_max preserves daily minimum and maximum",
 "With a mean course produced by calculate_mean_daily_course_by_month(normalize=True), the smallest/largest hourly value of each day equals tmin/tmax.",
 "every daily series with tmin<=tmax, every course with min 0 and max 1 per month", "Continuum.", [f"{TE}:disaggregate_temperature", f"{UT}:calculate_mean_daily_course_by_month"])
prop("C38", "mean_course_mean preserves the daily mean",
 "The mean of the 24 hourly values of each day equals the daily mean temperature and the range equals (tmax-tmin) times the range of the course.",
 "every daily series, every mean course", "Continuum.", [f"{TE}:disaggregate_temperature"])
prop("C39", "Night-time modified sine stays between the extremes and hits them",
 "With mod_nighttime=True and 0<=min_loc<max_loc<=23 every value lies between the applicable minimum and maximum, the value at min_loc is the minimum and the value at max_loc the maximum.",
 "every daily series, all min_loc<max_loc", "Continuum.", [f"{TE}:disaggregate_temperature"])
prop("C40", "Sine methods raise as soon as one day is a polar-night day (deviation)",
 "disaggregate_temperature with a sine method raises (ValueError or AttributeError) on current pandas whenever any day has a day length below 3 h, and otherwise never enters the polar branch.",
 "every daily series and sun-times table", "All tables.", [f"{TE}:disaggregate_temperature"])
# ---------------------------------------------------------------- radiation
prop("C41", "Radiation scaling preserves the daily mean up to the 0.01 cut-off",
 "disaggregate_radiation('pot_rad'/'mean_course'): for a day with positive mean potential radiation and daily mean g >= 0, hourly values are >= 0 and the daily mean of the result is within 0.01 of g (exactly g if no value is below 0.01); hours with zero potential radiation get 0.",
 "every non-negative potential course, every g", "Continuum.", [f"{RA}:disaggregate_radiation"])
prop("C42", "No potential radiation gives NaN, not zero (deviation)",
 "On a day whose mean potential radiation is 0 (polar night) every hourly value returned by disaggregate_radiation is NaN.",
 "every such day", "All inputs.", [f"{RA}:disaggregate_radiation"])
prop("C43", "Potential radiation is finite, non-negative, bounded, and zero at night",
 "potential_radiation on flat terrain without clouds: direct and diffuse parts are >= 0, total = direct + diffuse, zero whenever the sun is below the horizon, and at most 1367*1.0351*0.8*cos(zenith); the arcsine argument never leaves [-1,1] in real arithmetic.",
 "every day of year, hour, longitude, latitude, time zone with the sun not exactly in the zenith", "Continuum.", [f"{RA}:potential_radiation"])
prop("C44", "Angstroem and Bristow-Campbell models stay within potential radiation",
 "angstroem with a,b >= 0 lies between a*pot and (a+b)*pot for 0<=ssd<=daylength and increases with ssd; bristow_campbell with 0<=A<=1, C>0 and dT>=0 lies in [0, A*pot]; days with zero day length get 0 in 'pot_rad_via_ssd'.",
 "every admissible input", "Continuum.", [f"{RA}:angstroem", f"{RA}:bristow_campbell", f"{RA}:disaggregate_radiation"])
prop("C45", "calc_radiation_stats(how='monthly') skips the Bristow-Campbell fit when sunshine data are present (deviation)",
 "month_ranges is a one-shot iterator for how='monthly': if the Angstroem loop runs, the Bristow-Campbell loop runs zero times and the bristcamp table keeps its previous values; for how='all' and 'seasonal' every month receives exactly the fitted values of its own range.",
 "every fitting oracle and every data set", "Needs reasoning over all fit results.", [f"{SS}:StationStatistics.calc_radiation_stats"])
# ---------------------------------------------------------------- humidity
prop("C46", "Hourly humidity is always within [0,100] or missing",
 "Every value returned by disaggregate_humidity is NaN or lies in [0,100], for every method and option.",
 "every input, every method, exact arithmetic and binary64", "All inputs.", [f"{HU}:disaggregate_humidity"])
prop("C47", "Humidity min_max interpolates between the daily extremes",
 "method='min_max': hour temperature tmin gives hum_max, tmax gives hum_min, temperatures in between give values between hum_min and hum_max, decreasing in temperature. Hourly temperatures may be given on any increasing index: hours they do not cover and labels outside the days are missing in the result.",
 "every daily data with tmin<tmax, hum_min<=hum_max in [0,100]", "Continuum.", [f"{HU}:disaggregate_humidity"])
prop("C48", "Humidity 'minimal': saturation exactly at the daily minimum temperature",
 "method='minimal': an hour with temperature equal to the day's tmin has relative humidity 100, warmer hours have strictly less, colder ones are clipped to 100.",
 "every physical temperature", "Continuum.", [f"{HU}:disaggregate_humidity", f"{UT}:vapor_pressure"])
prop("C49", "preserve_daily_mean restores the observed daily mean unless clipping intervenes",
 "With preserve_daily_mean=True, if all corrected values of a day lie in [0,100], the mean of the day's hourly values equals the observed daily humidity; if clipping occurs the mean can differ.",
 "every day, every method output", "Continuum.", [f"{HU}:disaggregate_humidity"])
# ---------------------------------------------------------------- wind
prop("C50", "Cosine wind preserves b times the daily mean and stays non-negative for |a|<=b",
 "disaggregate_wind('cosine'): the mean of the 24 hourly values equals b times the daily mean for every real t_shift; values are >= 0 if |a| <= b and wind >= 0; 'equal' reproduces the daily mean.",
 "every daily series, all parameters", "Continuum.", [f"{WI}:disaggregate_wind", f"{WI}:_cosine_function"])
prop("C51", "Random wind is non-negative for draws in (0,1) and breaks for draw 0 (deviation)",
 "disaggregate_wind('random') gives a finite value >= 0 for every draw in (0,1) and wind >= 0; numpy's rand can return 0, for which the value is infinite (wind>0) or NaN (wind=0).",
 "every draw sequence", "Draw 0 has probability 2^-53.", [f"{WI}:disaggregate_wind"])
# ---------------------------------------------------------------- station
prop("C52", "Station and its statistics object agree on location and time zone",
 "After any sequence of constructor/setter calls (lon, lat, timezone, statistics, data_daily) on stations that never share a statistics object, station.statistics carries the station's current lon, lat and timezone; if one statistics object is assigned to two stations this can fail for the first one. An assignment to lon, lat or timezone changes that attribute of the station and of its statistics object and nothing else anywhere; an assignment to statistics writes the station's place into the object and changes nothing else; anything that is no statistics object raises AssertionError and changes nothing.",
 "every operation sequence; witness for sharing", "Quantifies over histories.", [f"{ST}:Station.lon", f"{ST}:Station.statistics", f"{ST}:Station.__init__"])
prop("C53", "Assigning data_daily yields a gap-free daily frame and a fresh all-missing hourly frame",
 "After a successful assignment data_daily has exactly one row per calendar day from first to last day, containing the assigned values on the given days and NaN elsewhere; data_disagg has 24 rows per day, all five columns all-NaN; sun_times has been recomputed iff the time zone is set.",
 "every frame", "All frames.", [f"{ST}:Station.data_daily"])
prop("C54", "A rejected data_daily leaves the station unchanged, except for stepped frequencies (deviation)",
 "If assignment raises because of type, resolution, ordering, duplicates or implausible temperature, no attribute of the station changes, and a constructor call given such data creates no station; type, index, resolution and order are checked first (AssertionError), then an empty frame (IndexError) or duplicate days (ValueError) without frequency, then the temperatures (AssertionError); with an index frequency of several days the assignment raises on current pandas after data_daily was already replaced, leaving data_daily and data_disagg inconsistent.",
 "every frame and prior station state", "Exception-safety over all states.", [f"{ST}:Station.data_daily"])
prop("C55", "Each disaggregate_* call changes only its own column, and nothing if it raises",
 "Station.disaggregate_{wind,humidity,temperature,precipitation,radiation} only modify the corresponding column of data_disagg (radiation additionally may fill sun_times); when the underlying function raises, data_disagg is unchanged.",
 "every call sequence and method argument", "Quantifies over histories.", [f"{ST}:Station"])
prop("C56", "sun_times are not updated when the location changes (deviation)",
 "Changing lon, lat or timezone after data_daily leaves sun_times as computed for the old location; only a new data_daily assignment or calc_sun_times refreshes it.",
 "every operation sequence", "Histories.", [f"{ST}:Station.lon", f"{ST}:Station.calc_sun_times"])
# ---------------------------------------------------------------- statistics / JSON
prop("C57", "CascadeStatistics survive the dictionary/JSON round trip",
 "Storing a statistics object as JSON and reading it gives back the same cells, thresholds and percentile, and the result is equal (==) to the original exactly when the original has no NaN; a dictionary with a table of any other shape raises AssertionError (ragged: ValueError), one lacking an entry KeyError; == compares all tables, thresholds and the percentile, is reflexive exactly on NaN-free objects and != is its negation.",
 "every statistics object", "All contents.", [f"{CA}:CascadeStatistics.from_dict", f"{CA}:CascadeStatistics.__eq__", f"{SS}:StationStatistics.to_json"])
prop("C58", "StationStatistics survive to_json/from_json if the courses cover all twelve months",
 "from_json(to_json(s)) reproduces wind, precip, humidity, temperature and radiation statistics (tables up to the 10 decimals pandas writes) whenever mean courses have columns 1..12 and the humidity table does not have exactly one row; the rows come back sorted; coordinates, time zone and data are not stored; a second round trip changes nothing; with fewer months from_json raises KeyError, with a one-row humidity table AttributeError; to_json succeeds exactly for unique labels and cascade statistics given as objects or lists of objects.",
 "every statistics content", "All contents.", [f"{SS}:StationStatistics.to_json", f"{SS}:StationStatistics.from_json"])
prop("C59", "Bunch: attribute and item access always agree, copies are independent",
 "After any sequence of attribute/item assignments and updates b.k and b['k'] agree for every key that is not an attribute of the dict type itself; a public name that is no key gives a method of dict if it is one of the eleven, else AttributeError; rebinding in a shallow copy never shows in the original, mutating a shared value does; a deep copy has the same content and shares no object with the original, but loses sharing between nested bunches and does not end on cyclic ones; a bunch with the key 'self' cannot be copied (deviations).",
 "every operation sequence", "Histories and aliasing.", [f"{BU}:Bunch"])
# ---------------------------------------------------------------- IO
prop("C60", 'SMET hourly round trip',
 "For pandas versions that allow 'del index.name', write_smet(mode='h') followed by read_smet(mode='h') succeeds and gives back the same columns, time stamps cut to whole minutes and values rounded to two decimals (half a hundredth off at most); missing values come back missing exactly if the marker prints as -999.00 (or is itself missing), and every number that prints as -999.00 is lost (deviation). With later pandas read_smet raises AttributeError on every such file (deviation).",
 'every frame with known distinct columns and four-digit years, every single-line header, every marker', 'All frames, numbers and headers.', [f"{IO}:write_smet", f"{IO}:read_smet"])
prop("C61", "SMET daily round trip exchanges tmin and tmax (deviation)",
 "Writing with mode='d' and reading with mode='d' returns a frame in which the columns tmin and tmax are exchanged and all other known columns are unchanged.",
 "every frame", "Dictionary mistake, needs symmetrical data to be caught.", [f"{IO}:write_smet", f"{IO}:read_smet"])
prop("C62", "SMET header values are cut at '=' and write_smet modifies the caller's metadata (deviation)",
 "Each header entry comes back with stripped key and with its value cut at the first '=' and stripped; entries already stripped and without '=' come back unchanged; a header line without '=' raises IndexError; write_smet sets the keys fields and units_multiplier in the dictionary passed by the caller and leaves all other entries alone.",
 'every metadata dictionary of single-line strings whose keys differ after stripping', 'All strings.', [f"{IO}:read_smet", f"{IO}:write_smet"])
prop("C63", 'write_smet with an unknown mode destroys the target file (deviation)',
 "write_smet with a mode other than 'd' and 'h' raises for every frame with at least one row (NameError, from Python 3.12 UnboundLocalError) after the target file has been opened for writing: its previous content is lost. For a frame without rows the call succeeds, and with check_nan=False it adds a column 'timestamp' to the caller's frame.",
 'every frame and header', 'Effect ordering.', [f"{IO}:write_smet"])
prop("C64", 'KNMI reader: time stamps, units, missing values, several files',
 'A record (YYYYMMDD, HH) of an existing date with HH from 1 to 24 gets the time stamp day + HH hours (24 is 00:00 of the next day); any other date or hour raises ValueError. temp = T/10+273.15, precip = max(RH/10,0), glob = Q*10000/3600, hum = U, wind = FH/10, ssd = 6*SQ, missing stays missing; in doubles no precipitation value is negative; the code -1 for sunshine becomes -6 minutes instead of 0 (deviation). Several files are put one after the other in directory order, neither sorted nor freed of repeated times (deviation). With pandas versions that have no pd.datetime every file with a record raises (deviation).',
 'every list of records, every list of files', 'All records and all calendar dates including leap years.', [f"{IO}:read_single_knmi_file", f"{IO}:read_knmi_dataset"])
prop("C65", 'DWD reader drops the last line even when asked not to (deviation)',
 'read_dwd(skip_last=False) gives the same result as skip_last=True and does not depend on the last line of any file; only skip_last=None reads the last line.',
 'every file or list of files, every content', 'All inputs.', [f"{IO}:read_dwd"])
prop("C66", "Station.interpolate keeps the observations and stays between neighbouring ones",
 "prepare_interpolation_data places each column's value at its hour of each day on the hourly grid of all days and leaves all other hours missing; linear interpolation then keeps observed values and every interpolated value lies between the neighbouring observations, in proportion to the distance in time, if the earlier one is at most `limit` hours away and limit_direction is not 'backward', or the later one and it is not 'forward' (missing otherwise); before the first and after the last observation the nearest one is continued under the same conditions; a limit below 1 raises ValueError (pandas versions providing Series.append; AttributeError otherwise).",
 "every daily frame, every column/hour map with distinct hours", "All frames.", [f"{UT}:prepare_interpolation_data", f"{ST}:Station.interpolate"])

prop("C67", "disagg_prec(method='equal') does not accept the documented argument (deviation)",
 "disagg_prec documents its daily data as a pd.Series, but method='equal' reads its attribute 'precip' and raises AttributeError for every Series; it works for a frame with a column 'precip', while 'cascade' and 'masterstation' work on the Series.",
 "every Series, every other argument", "No test calls the method with the documented type; holds for all series.", [f"{PR}:disagg_prec"])
prop("C68", "Every hour of the cascade result is made of the quarter-hours of its 45-minute boxes",
 "The cascade ends with 32 boxes of 45 minutes per day; each hour of a non-missing day equals exactly the sum over its four quarter-hours of one third of the amount of the 45-minute box that contains the quarter-hour (no rain is moved across a box, an hour or a day boundary).",
 "every daily series, all statistics, all draws (exact arithmetic)", "Ranges over all boxes of all realisations; mass conservation alone would not notice rain moved to a neighbouring hour.", [f"{PR}:disagg_prec_cascade"])
prop("C69", "Statistics of a record without rain, or with a single pair, cannot be computed",
 "aggregate_precipitation raises IndexError for every record whose values are all zero or missing (percentile of an empty selection), and for every record of just two values with rain (the box type of the only box needs a right neighbour).",
 "every dry record of any length, every two-value record, every percentile 0..100", "Ranges over all dry records.", [f"{PR}:aggregate_precipitation"])
prop("C70", "detect_gaps announces a shortened list although it has listed every gap (deviation)",
 "With verbose output, detect_gaps lists every gap when print_all is set and otherwise the first print_max ones; the note that only the first print_max gaps are listed appears exactly when there are at least print_max gaps, hence also when all of them have been listed (exactly print_max gaps, or print_all=True).",
 "every index, step, print_max >= 1 (pandas versions with Timedelta.delta)", "Ranges over all indexes; tests do not read the printed output.", [f"{UT}:detect_gaps"])

prop("C71", "The sine methods cannot be called with the default sun_times and always need the column 'temp' (deviation)",
 "disaggregate_temperature with a sine method and sun_times left at its default None raises for every daily frame (AttributeError in the otherwise valid all-defaults call); it returns a result only if the daily frame has a column 'temp', although sine_min_max does not use it; an unknown method raises ValueError.",
 "every daily frame and option", "A universally quantified failure; the test suite always passes sun_times and all columns.", [f"{TE}:disaggregate_temperature"])
prop("C72", "The night-time modified curve jumps at the time of minimum (deviation)",
 "With mod_nighttime=True every hour strictly between the times of minimum and maximum is already more than (1-sqrt(1/2))/2, about 14.6 %, of the diurnal range above the minimum, however many hours lie between the two: the curve does not rise continuously from the minimum.",
 "every daily series, all min_loc<max_loc", "Continuum.", [f"{TE}:disaggregate_temperature"])
prop("C73", "The maximum-temperature shift is the monthly mean distance of the daily maximum from solar noon",
 "get_shift_by_data on hourly data of consecutive days returns, for each month that occurs and no other, the mean over its days of (hour of the first maximum of the day - solar noon), leaving out days without valid values, and NaN if no day of the month has any.",
 "every hourly record of consecutive days incl. missing values, every site", "Ranges over all records.", [f"{TE}:get_shift_by_data", f"{UT}:get_sun_times"])

prop("C74", "Sloping terrain receives direct radiation at night (deviation)",
 "potential_radiation with a terrain slope between 0 and 180 degrees returns a positive direct part while the sun is below the horizon, whenever the slope faces the computed azimuth: 1367*ratio*0.6*(1-cloud)*sin(slope)*cos(azimuth difference). At local midnight at 45 degrees north a 30-degree slope facing azimuth 0 gets more than 395 W/m2 on every day of the year.",
 "every day of year, time, site with the sun at or below the horizon, every slope", "Continuum of sites and times; tests use flat terrain.", [f"{RA}:potential_radiation"])
prop("C75", "Bristow-Campbell gives NaN for a day colder than the next morning's average minimum (deviation)",
 "disaggregate_radiation('pot_rad_via_bc'): on a day whose maximum is below the mean of its own and the next day's minimum, every hourly value is NaN whenever the exponent is not an integer (the default is 2.4), instead of 0 or a clipped value.",
 "every daily series, every site, every non-integer exponent", "Ranges over all temperature series; a test needs a sudden warm-up.", [f"{RA}:bristow_campbell", f"{RA}:disaggregate_radiation"])

prop("C76", "Humidity by month, hour and wet day: table of class means, KeyError for unseen classes",
 "calculate_month_hour_precip_mean has an entry for (month, hour, wet) exactly if such an hour was observed, and it is the mean of the known humidities of the class (NaN if none is known), a day being wet if its known amounts sum to more than zero; disaggregate_humidity('month_hour_precip_mean') gives every hour the entry of its class, a day with missing precipitation counting as dry, and raises KeyError if any needed class is absent.",
 "every hourly record incl. missing values, every daily frame of consecutive days", "Ranges over all records.", [f"{HU}:calculate_month_hour_precip_mean", f"{HU}:disaggregate_humidity"])
prop("C77", "Dew-point humidity combines temperature and daily data by position, ignoring dates (deviation)",
 "disaggregate_humidity with 'minimal' or 'dewpoint_regression' pairs the hour h of day i with row 24*i+h of the temperature series whatever its time stamps, and labels the result with those stamps; only a different length is refused (ValueError).",
 "every temperature series with any index, every daily frame", "Universally quantified over misaligned inputs, which tests never use.", [f"{HU}:disaggregate_humidity", f"{UT}:vapor_pressure"])
prop("C78", "The cosine wind fit has an exact solution on data that follow the cosine law",
 "If every day of an hourly record follows the cosine law with amplitude a, offset b<>0 and phase t_shift applied to some daily number, all 24*n rows handed to the fit are reproduced without residual by (a/b, 1, t_shift), since the daily mean is b times that number.",
 "every number of days, all parameters", "Continuum of parameters.", [f"{WI}:fit_cosine_function"])
prop("C79", "Linear dew-point variation follows the published equation and leaves the daily mean dew point alone",
 "disaggregate_humidity('linear_dewpoint_variation') with kr 6 or 12 uses, for hour h of day i, the dew point td_i + h/24*(td_(i+1)-td_i) + 0.5*sin((h+1)*pi/kr-3*pi/4), td_i = a0+a1*tmin_i, the last day continuing with itself; the sine terms of a day add up to zero; any other kr or a missing coefficient is refused.",
 "every daily frame, all coefficients", "Continuum.", [f"{HU}:disaggregate_humidity"])

prop("C80", "A season with a gap in the record makes the cascade fail (deviation)",
 "On current pandas Station.disaggregate_precipitation('cascade') raises, leaving data_disagg unchanged, as soon as one season with statistics has two days in the record with a day outside the season between them - for instance a winter season and a record that reaches from one winter into the next.",
 "every record, every list of seasons and statistics, every random stream", "Ranges over all records and season lists; tests use one season or one year.", [f"{ST}:Station.disaggregate_precipitation", f"{UT}:hourly_index"])
prop("C81", "Seasonal cascade disaggregation conserves every day's amount in the station's hourly frame",
 "After a successful Station.disaggregate_precipitation('cascade') on gap-free daily data, the 24 hourly values of every day that belongs to a season with statistics and at least one other day in the record are non-negative and sum to the day's amount, a missing day is missing, every other day stays missing, and no other column changes.",
 "every record with non-negative or missing amounts, every list of seasons, statistics and random stream", "Randomised; infinitely many records.", [f"{ST}:Station.disaggregate_precipitation", f"{PR}:disagg_prec", f"{PR}:seasonal_subset"])
prop("C82", "Humidity before temperature is silently all missing (deviation)",
 "Station.disaggregate_humidity with minimal, dewpoint_regression, linear_dewpoint_variation or min_max, called while data_disagg.temp holds no values (as directly after assigning data_daily), does not raise because of it: whenever it succeeds it fills data_disagg.hum with missing values only.",
 "every station state, every parameter set", "Quantifies over states and call orders.", [f"{ST}:Station.disaggregate_humidity", f"{HU}:disaggregate_humidity"])
prop("C83", "Precipitation options: shift only acts on the cascade, unknown methods fail late (deviation)",
 "Station.disaggregate_precipitation gives the same result for every shift (and random stream) unless the method is 'cascade', where, with one season covering the record, a shift of k moves the whole hourly column by k hours (filling with missing); an unknown method raises UnboundLocalError and 'masterstation' always raises on current pandas, both leaving the station unchanged.",
 "every station state and argument", "Quantifies over all arguments.", [f"{ST}:Station.disaggregate_precipitation"])
prop("C84", "What a failing statistics calculation leaves behind (deviation)",
 "When a calc_*_stats call raises, the statistics object is unchanged for data, wind and temperature; calc_precipitation_stats has already replaced the season months but keeps the old statistics, so months and statistics may no longer belong together, and, unless it failed before selecting the first season or for lack of the column, has turned the missing amounts of the record into zeros; calc_humidity_stats may have replaced the regression coefficients but keeps the old table.",
 "every statistics object, every argument, every behaviour of the fitting routines", "Exception-safety over all states.", [f"{SS}:StationStatistics.calc_precipitation_stats", f"{SS}:StationStatistics.calc_humidity_stats"])
prop("C85", "Disaggregated wind and precipitation land on the right hours of the station's frame",
 "After assigning gap-free daily data, Station.disaggregate_precipitation('equal') leaves 24 times a twenty-fourth of the day's amount on that day, disaggregate_wind('equal') leaves the daily mean, and disaggregate_wind('cosine'), whose result is stored by position, leaves a*v*cos(pi*(h-shift)/12)+b*v at hour h with daily mean b*v.",
 "every record, all parameters", "All records.", [f"{ST}:Station.disaggregate_precipitation", f"{ST}:Station.disaggregate_wind"])

prop("C86", 'write_smet(check_nan=True) does not drop columns without data (deviation)',
 'The file lacks exactly the columns that hold both +infinity and -infinity, and only with check_nan=True; columns consisting of missing values only, which the documentation says are dropped, are written and come back as all missing.',
 'every frame and header as in C60, both modes', 'All frames.', [f"{IO}:write_smet", f"{IO}:read_smet"])

prop("C87", 'DWD reader: columns, units and header',
 "read_dwd keeps exactly the columns whose stripped names are known, in file order, under their melodist names; tmin, tmax and tmean are converted to Kelvin and all other values are those of the file. Hourly temperatures come back as 'tmean', never as 'temp' (deviation). The header comes from the last row of the metadata that is not empty, KeyError if there is none; a mode other than 'd' and 'h' raises UnboundLocalError.",
 'every table and every metadata file', 'All column names, tables and metadata.', [f"{IO}:read_dwd"])

prop("C88", 'DWD reader: several files are joined without loss',
 'For files with disjoint kept columns and no repeated times, read_dwd of the list has exactly the times of all files, each once, increasing if all files are; every value of every file is found again under its name at its time, and all other cells are missing. Files sharing a kept column raise ValueError; an empty list raises UnboundLocalError.',
 'every list of files', 'All combinations of overlapping and disjoint periods.', [f"{IO}:read_dwd"])

prop("C89", 'A successful statistics calculation stores exactly what it computed and touches nothing else',
 "After calc_wind_stats the object holds the three numbers the fit returned for the rows (mean of the valid values of the day, hour, value), in the order a, b, t_shift; after calc_humidity_stats a1 is the slope and a0 the intercept of the regression of the daily mean dew point on the daily minimum temperature, kr is 12 and the table is that of the record; after calc_temperature_stats the shifts and the normalised mean course of the record; after calc_precipitation_stats one set of statistics per season, with the given months (all twelve by default), computed from the season's part of the record. All other parts of the object are unchanged, except that calc_precipitation_stats fills missing values of the seasons' hours in data.precip. Assigning data accepts exactly the data frames with time stamps on full hours that are not all at midnight; anything else raises an AssertionError and changes nothing.",
 "every statistics object and argument, every behaviour of the fitting routines", "Frame conditions over all states.", [f"{SS}:StationStatistics.calc_wind_stats", f"{SS}:StationStatistics.calc_humidity_stats", f"{SS}:StationStatistics.calc_temperature_stats", f"{SS}:StationStatistics.calc_precipitation_stats"])

prop("C90", 'Wind: a calibrated station reproduces the observations as well as the fit does',
 "If calc_wind_stats fits the observed hours with residuals of at most eps, Station.disaggregate_wind('cosine') with the daily means of the same record reproduces every observed hour within eps; observations may be missing.",
 "every record of consecutive days, every residual bound, every fit result", "Continuum of records and parameters.", [f"{SS}:StationStatistics.calc_wind_stats", f"{ST}:Station.disaggregate_wind", f"{WI}:disaggregate_wind", f"{WI}:fit_cosine_function"])

prop("C91", 'Temperature: a calibrated station attains the given extremes on every day',
 "If the observations cover every hour of every month of the station's record and the mean course of each of these months is not constant, calc_temperature_stats followed by Station.disaggregate_temperature('mean_course_min_max') succeeds, and every day with known tmin <= tmax has tmin as its least and tmax as its greatest hourly value.",
 "every record of observations, every daily record", "All records.", [f"{SS}:StationStatistics.calc_temperature_stats", f"{ST}:Station.disaggregate_temperature", f"{TE}:disaggregate_temperature"])

prop("C92", 'Humidity: a calibrated station reproduces linear dew point data exactly and class means in every hour',
 "If the dew point is constant over each observed day and a linear function of the day's minimum temperature (two different minima), calc_humidity_stats finds that function and Station.disaggregate_humidity('dewpoint_regression') returns the observed humidity at every hour where dew point and temperature are not on different sides of freezing; in general it and 'linear_dewpoint_variation' use the fitted coefficients, and 'month_hour_precip_mean' gives every hour the mean of the observations of its class, failing with KeyError if there is none.",
 "every record, every least-squares routine", "Continuum of records.", [f"{SS}:StationStatistics.calc_humidity_stats", f"{ST}:Station.disaggregate_humidity", f"{HU}:disaggregate_humidity", f"{HU}:calculate_dewpoint_regression", f"{UT}:linregress"])

prop("C93", 'Precipitation: when the cascade can be calibrated, and that a calibrated cascade works',
 "calc_precipitation_stats on non-negative hourly observations (some possibly missing) succeeds if and only if every season has at least 64 hours and, counting its hours in blocks of 32, one block that is complete and not dry (a missing hour counts as missing in the first season and as dry in the later ones); otherwise it raises IndexError. After a successful call Station.disaggregate_precipitation('cascade') succeeds at every station if and only if no season is interrupted inside the station's record, for all daily amounts, shifts and all random draws up to 1 - 10^-15; without seasons and shift, on a record of two days or more, every daily amount comes back as 24 non-negative hourly amounts with that sum, and a missing amount as 24 missing values.",
 "every record, every division into seasons, averaged or per-level statistics, every daily record, every random stream", "Success on all records and all random streams is not testable.", [f"{SS}:StationStatistics.calc_precipitation_stats", f"{PR}:build_casc", f"{PR}:aggregate_precipitation", f"{PR}:seasonal_subset", f"{ST}:Station.disaggregate_precipitation", f"{PR}:disagg_prec_cascade"])

prop("C94", 'Precipitation in double precision: daily sums are kept up to rounding',
 "In IEEE double arithmetic, for records of at most a million days with amounts between 0 and 2^900, the 24 hourly amounts the cascade returns for a day add up to its amount with an error of at most 2*10^-14 times the precipitation of the record up to and including that day (plus 10^-300). No bound in terms of the day's own amount alone is true: after an enormous amount a day of 1 mm can come back completely dry (deviation). With method 'equal' the error is at most 10^-15 times the day's own amount (plus 10^-300).",
 "every record, all statistics and random draws, in doubles", "Rounding behaviour over all doubles and all records.", [f"{PR}:disagg_prec_cascade", f"{PR}:disagg_prec", f"{UT}:distribute_equally"])

prop("C95", 'A station disaggregates radiation with its own sky, and reproduces what it was calibrated on',
 "At a station with a location, disaggregate_radiation works for 'pot_rad', 'pot_rad_via_ssd' and 'pot_rad_via_bc' without further arguments, writes only the glob column, and every day that is not dark and has no hour with the sun exactly in the zenith gets hours in proportion to the cloud-free radiation of the station's own longitude, latitude and time zone. Their mean is the day's glob, the Angstroem estimate from sunshine duration and the station's own day length, or the Bristow-Campbell estimate, each with the parameters of the day's own month, less at most 0.01 from cutting off small values. After calc_radiation_stats, 'mean_course' gives every day the shape of the observed mean hours of its month, and if the Angstroem fit leaves residuals of at most eps, 'pot_rad_via_ssd' reproduces the observed daily means within eps + 0.01.",
 "every station, record, calibration and fit result", "Requires reasoning over all places, days and fitted parameters.", [f"{ST}:Station.disaggregate_radiation", f"{SS}:StationStatistics.calc_radiation_stats", f"{RA}:disaggregate_radiation", f"{RA}:potential_radiation"])

prop("C96", 'Bristow-Campbell calibration: what is minimised, and what that gives',
 "For consecutive complete days the function minimised by fit_bristow_campbell_params is the absolute mean over the days of (estimate - observation), with the estimates disaggregate_radiation would use. So with calc_radiation_stats(how='all') on a complete record, if the fit reaches a mean bias of at most eps (with A >= 0, C > 0, and no day whose maximum lies below its mean minimum), 'pot_rad_via_bc' at the station reproduces the mean radiation of the period within eps + 0.01. A day whose following day is not in the table (before a gap, or the last day of a season when how='seasonal') has no estimate there, and its observation has no influence on the calibration (deviation).",
 "every record, station and fit result", "Requires reasoning over all records and fitted parameters.", [f"{RA}:fit_bristow_campbell_params", f"{RA}:bristow_campbell", f"{SS}:StationStatistics.calc_radiation_stats", f"{ST}:Station.disaggregate_radiation"])

prop("C97", 'Sub-daily time indices with and without gaps',
 "For a daily index of increasing days without gaps, fmin_index gives exactly the 288 stamps five minutes apart of every listed day and sub_level_index(level=L), L <= 11, exactly its 2^L equally spaced stamps, in order, whatever fill_gaps is. With gaps and fill_gaps=True, these and hourly_index give the stamps of all days from the first to the last listed one, none outside. With gaps and fill_gaps=False only the stamps of the listed days are kept where pandas still offers pd.datetime, and they are cut to whole seconds, so that from level 8 on they are no longer equally spaced (deviation); with a current pandas the call fails with AttributeError (deviation).",
 "every strictly increasing list of days, every level up to 11, both values of fill_gaps, both pandas generations", "Tests cannot enumerate all sets of days.", [f"{PR}:sub_level_index", f"{PR}:fmin_index", f"{UT}:hourly_index"])

prop("C98", 'The order of disaggregation calls on a station',
 "Once a station has its sun times, two disaggregate_* calls for different variables can be exchanged (same station afterwards, same exceptions), except temperature and humidity; repeating a call changes nothing; and after any sequence of calls every hourly column except humidity holds exactly what the last successful call for it would have given on the untouched station. For humidity only the temperature calls before it matter, and it is not updated when temperature is computed again (deviation). Without sun times (data assigned before the time zone) the order matters: the sine methods fail before and work after any call of disaggregate_radiation, even a failing one (deviation).",
 "every station, statistics object, sequence of calls and options; random draws given per call", "Tests run a few sequences; the claim is about all interleavings.", [f"{ST}:Station.disaggregate_wind", f"{ST}:Station.disaggregate_humidity", f"{ST}:Station.disaggregate_temperature", f"{ST}:Station.disaggregate_precipitation", f"{ST}:Station.disaggregate_radiation", f"{ST}:Station.calc_sun_times"])

prop("C99", 'The statistics shipped with the library',
 "fill_with_sample_data sets the branching probabilities and weights to the numbers printed in its source and leaves thresholds and percentile alone. In every cell these probabilities and weights are positive and add up to 1 within 10^-15, but not exactly (deviation). With them and the thresholds of a new CascadeStatistics the hourly cascade succeeds on every record of at least two days of non-negative or missing amounts, for all random draws up to 1 - 10^-15, and every daily amount comes back as 24 non-negative hourly amounts with that sum (exact arithmetic). A new CascadeStatistics has five thresholds but only zeros in its tables, and without sample data it fails with UnboundLocalError on every record with a wet day, for all positive draws (deviation).",
 "every record, every random stream within the stated ranges", "Success and failure on all records and all random streams are not testable.", [f"{CA}:CascadeStatistics.fill_with_sample_data", f"{CA}:CascadeStatistics.__init__", f"{PR}:disagg_prec_cascade"])
prop("C100", 'Master-station method in binary64 arithmetic',
 "In double arithmetic, with the master sum of a day added up in any order, a day with 24 master values and a daily amount between 0 and 2^900 and a positive master sum comes back as 24 finite non-negative hourly amounts whose exact sum differs from the daily amount by at most 3e-14 times the amount plus 1e-300. On a dry master day the hours are amount times 1/24 (zerodiv='uniform', same bound) or 0. The amount is not kept exactly (deviation; witness 1 mm with an even master).",
 "every record, every master record, every order of addition", "Rounding over all doubles and all addition orders cannot be enumerated.", [f"{PR}:precip_master_station", f"{PR}:disagg_prec"])
prop("C101", 'Five-minute cascade in binary64 arithmetic',
 "With hourly=False (levels 9 to 11) and daily amounts between 0 and 2^900 or missing, whatever way pandas adds the boxes of a 5-minute interval, as long as its sums of up to eight such numbers are right within 1e-14: every day has 288 values, all finite and non-negative, whose exact sum differs from the daily amount by at most 2e-14 of that amount plus 1e-300, independent of the other days; a dry day has only zeros and a missing day only NaN. Plain and compensated (Kahan) addition are both within that bound.",
 "every record, every statistics object, every random stream, every summation within the bound", "Rounding over all doubles and all summation algorithms cannot be enumerated.", [f"{PR}:disagg_prec_cascade"])
prop("C102", 'Mean courses and mean_course_min_max in binary64 arithmetic',
 "In double arithmetic, for numbers up to 2^900 in size and however the means are computed: the table has a column for each month that occurs, holding for every hour that occurs the mean of exactly the values of that month and hour; a normalised monthly course with at least two different means lies in [0,1], is exactly 0 at the smallest and exactly 1 at the largest mean and keeps the order. With course values in [0,1] and tmin <= tmax every temperature of mean_course_min_max is finite, is never below tmin, equals tmin exactly where the course is 0, never decreases when the course value increases, and differs from the exact formula by at most 1e-15 of max(|tmin|,|tmax|) plus 1e-300. It can exceed tmax (deviation; witness -7.9 and 3.9 degrees).",
 "every record, every course, every way to compute the means", "Rounding over all doubles cannot be enumerated.", [f"{TE}:disaggregate_temperature", f"{UT}:calculate_mean_daily_course_by_month"])

prop("C103", 'Master station: days with an incomplete master record depend on how pandas assigns them',
 "The last step of the master-station method writes a Series of the master's shares into the hours of a day. Where the master has exactly the 24 full hours of every day, writing by label (older pandas) and by position (pandas 1.4 and 1.5) give the same result. By position, a day is accepted exactly if the master's total is zero or the master has 24 values or one value that day: 24 values go to the 24 hours in order whatever their time stamps, a single value gives every hour the whole daily amount, so the day carries 24 times its amount (deviation), and any other number raises ValueError for the whole call. By label the hours the master lacks are missing instead.",
 "every daily series, every sorted master record of numbers, both zero options", "The behaviours differ only on incomplete records and between library versions; a test suite runs one version.", [f"{PR}:precip_master_station"])

prop("C104", 'Test mode of the cascade returns the intermediate levels of the very same run',
 "A call of the cascade with test=True raises, or returns None, exactly when the same call with test=False does, and the series at the end of its tuple is the series the other call returns; except that for a 5-minute call with a level other than 9, 10 or 11 it raises UnboundLocalError after all the work (deviation). The arrays in the tuple are the levels of the cascade drawn with these random numbers: level k has 2^k boxes per day, all non-negative, the two halves of every box add up to the box, and every level keeps every daily amount (missing days count as zero). In the hourly tuple the quarter-hour array is a third of each 45-minute box and every hour is the sum of its four quarters; in the 5-minute tuple the box series carries the start of every box.",
 "every daily series of consecutive days, non-negative or missing amounts (exact arithmetic), every statistics argument, level, random sequence", "Tests compare single arrays of one seed; the relation between all levels and the two modes is over all runs.", [f"{PR}:disagg_prec_cascade"])
prop("C105", 'The cascade without hourly output at levels other than 9, 10 and 11',
 "For levels 1 to 8 the 5-minute output puts the whole amount of a box into the single 5-minute row in which the box starts and zero into all other rows; daily amounts are kept and missing days are missing. The output ends with the row of the last box, so 1, 2, 4, 8, 17, 35, 71 or 143 rows (levels 8 down to 1) of the last day are absent (deviation). Statistics that cover the levels always give a result. Level 0 raises UnboundLocalError and no level above 11 ever returns a series.",
 "every daily series of consecutive days, non-negative or missing amounts (exact arithmetic), every statistics argument and random sequence", "Only levels 9 to 11 are ever exercised; the absent rows concern only the very end of the output.", [f"{PR}:disagg_prec_cascade", f"{PR}:sub_level_index"])

prop("C106", 'Sine temperatures in binary64 arithmetic',
 "In double arithmetic, with any cosine that stays in [-1,1] and is accurate to 1e-15 for arguments up to 1000, numpy's pi, temperatures up to 2^900 in size and hours of minimum and maximum between -30 and 30: every hour of sine_min_max, with or without the night-time option, is finite and differs from the exact course between the two applicable daily extremes by at most 1e-13 of their size plus 1e-300; so it lies between them up to that error, the hour of the maximum carries the day's maximum and with the night-time option the hour of the minimum carries the day's minimum up to that error. With sine_mean every hour is that close to mean + half range * cosine and the 24 hours add up to 24 times the daily mean up to 24 times that error.",
 "every daily frame of consecutive days, every cosine of that accuracy, every hour", "Rounding over all doubles and all libraries' cosines cannot be enumerated.", [f"{TE}:disaggregate_temperature"])

prop("C107", 'Cosine wind in binary64 arithmetic',
 "In double arithmetic, with the same kind of cosine, wind speeds and parameters a, b up to 2^400 and a time shift up to 100 hours in size: every hour is finite and within 1e-13 of (|a|+|b|)*|w| plus 1e-300 of a*w*cos(pi*(h-shift)/12)+b*w, and the 24 hours add up to 24*b*w up to 24 times that. If w >= 0 and |a| <= b no hourly value is negative and none exceeds the double 2*(b*w): these two bounds hold exactly, without an error term.",
 "every daily series, every parameter triple, every cosine of that accuracy, every hour", "Rounding over all doubles cannot be enumerated; a small negative wind speed would come from a single unlucky rounding.", [f"{WI}:_cosine_function", f"{WI}:disaggregate_wind"])

prop("C108", 'Computing the daily data back from the hourly data of a station',
 "After any session of disaggregation calls on one station, in any order and including failing calls, whose sun times are known, daily_from_hourly applied to the station's hourly frame gives back, in exact arithmetic, what the last successful call for each variable was given: precipitation distributed equally or by the cascade comes back exactly (a day without observation comes back as 0, a deviation; so does, for the cascade, a day outside every season with statistics), wind distributed equally comes back exactly and cosine wind as b times the observation, minimum and maximum temperature come back from the course between minimum and maximum, the mean from the course and the sine around the mean, minimum and maximum humidity from the temperature-dependent method after that course, radiation up to 0.01 W/m2 and never above the observation. A variable that was never filled comes back as missing, precipitation as 0.",
 "every station, session, day, parameter set and random stream",
 "The statement composes every method with the aggregation over sessions of any length and order; tests compare single methods on a few records with a tolerance.", [f"{ST}:Station", f"{UT}:daily_from_hourly", f"{PR}:disagg_prec", f"{TE}:disaggregate_temperature", f"{HU}:disaggregate_humidity", f"{WI}:disaggregate_wind", f"{RA}:disaggregate_radiation"])

prop("C109", 'Radiation scaled to the daily mean in doubles',
 "In binary64 arithmetic, whatever order pandas adds in (or compensated summation), disaggregate_radiation with method 'pot_rad' or 'mean_course' gives, for every day whose 24 course values and daily mean lie between 0 and 2^400 and whose largest course value is at least 2^-300, 24 finite hourly values: each is either 0 with the exact value below 0.01 W/m2 (up to 1e-15) or at least 0.01 and off by at most 1e-13 of the exact value course / mean course * daily mean; a course value of 0 gives exactly 0, so does a daily mean of 0; a larger course value never gives a smaller hourly value; the mean of the hours is above the daily mean by at most 1e-13 of it and below by at most 0.01 plus that, and so is, up to twice that error, the mean computed back in doubles.",
 "every record, day, course, daily mean and order of summation",
 "Quantifies over all doubles and over the unspecified order of summation; tests compare a few values with a tolerance.", [f"{RA}:disaggregate_radiation"])

prop("C110", "Humidity between its daily minimum and maximum in doubles",
 "In binary64 arithmetic, disaggregate_humidity with method 'min_max' gives, for every day whose minimum temperature lies below its maximum (both of modest size), whose humidity bounds lie between 0 and 100 in the right order, and every hour whose temperature is at least the daily minimum and exceeds it by at most twice the daily range, a finite humidity between 0 and the daily maximum of humidity, off by at most 2e-13 percent from the exact line (cut off at 0); at the daily minimum of temperature it is exactly the daily maximum of humidity, and a warmer hour of the day never is more humid. (Deviation: at the daily maximum of temperature the value may lie below the daily minimum of humidity, so hourly values are not confined between the two daily bounds.)",
 "every record, day, hour, temperature and humidity bound",
 "Quantifies over all doubles in the stated range; a test checks a few values with a tolerance and would not see the last-digit effects.", [f"{HU}:disaggregate_humidity"])

prop("C111", "Method names: which are of use, and what a refused name leaves behind",
 "For each of the five variables, a method name makes Station.disaggregate_* return for some station if and only if it is one of the documented names (wind: 3, humidity: 6, temperature: 5, precipitation: 3, radiation: 4); with any other name the call raises for every station and leaves it as it was, except that disaggregate_radiation has then already computed and stored the sun times (deviation). Of the constants of the class Options each is of use for its variable but TEMP_LINEAR = 'linear', which disaggregate_temperature always refuses; EQUAL_DISTRIBUTION is of use for humidity, wind and precipitation and refused for temperature and radiation (deviation).",
 "every string, station, statistics object and environment",
 "Refusal quantifies over all strings and all stations; a test tries one misspelt name on one station.", ["melodist/__init__.py:Options", f"{ST}:Station.disaggregate_wind", f"{ST}:Station.disaggregate_humidity", f"{ST}:Station.disaggregate_temperature", f"{ST}:Station.disaggregate_precipitation", f"{ST}:Station.disaggregate_radiation"])

prop("C112", "Daily aggregates of hourly values in doubles",
 "For a record of doubles and a day with at most 24 recorded hours, missing or between 0 and 2^900 and not all missing, daily_from_hourly returns the exact smallest and largest valid value as tmin/tmax and hum_min/hum_max; the mean (temp, hum, wind, glob) is finite, not negative and off by at most 3*10^-14 of the exact mean plus 10^-300, so it leaves [minimum, maximum] by at most that fraction of the maximum; the sum (precip) is off by at most 2.8*10^-14 of the exact sum and the sunshine hours by at most 3*10^-14 plus 10^-300. This holds for every order of the additions and for compensated summation. The mean of a constant day can exceed its maximum in both cases (deviation from C29).",
 "every hourly record of doubles, every day meeting the bounds, every way of adding up",
 "Rounding of all sums of up to 24 doubles in every order; a test compares a few values with a tolerance.", [f"{UT}:daily_from_hourly"])

prop("C113", "Interpolation in doubles",
 "Station.interpolate with method 'linear' on columns of doubles (zero or between 2^-800 and 2^900 in absolute value, up to 2^50 hours): observations are returned bit for bit; between two neighbouring observations every value is finite, lies between them in the floating point order, rises or falls monotonically from the earlier to the later, equals them if they are equal, and is off by at most 10^-15 of the larger absolute value from the exact straight line; before the first and after the last observation the nearest one is repeated bit for bit; hours out of reach of limit and limit_direction are missing. For subnormal observations a value can pass the later neighbour (deviation).",
 "every column/hour map of doubles, limit and direction",
 "Monotonicity and bounds under rounding hold for all pairs of doubles and all gap lengths; tests sample a few.", [f"{UT}:prepare_interpolation_data", f"{ST}:Station.interpolate"])

prop("C114", "mean_course_mean in doubles",
 "disaggregate_temperature with method 'mean_course_mean' on doubles (daily minimum <= maximum, all daily values at most 2^900 in absolute value, a course with 24 values between 0 and 1): every hour is finite and within 4*10^-14 of the daily range plus 2*10^-16 of the daily mean (plus 10^-300) of mean + range * (course value - mean of the course); so is the exact mean of the 24 returned doubles of the daily mean; hours are ordered as in the course; on a day without range all 24 values equal the daily mean. The daily mean is not kept exactly in general (deviation).",
 "every daily series of doubles, every course in [0,1], every way of averaging the course that is accurate to 3*10^-14", "Rounding errors of the course's mean enter every hour of the day; tests look at a few days.", [f"{TE}:disaggregate_temperature"])

prop("C115", "read_smet on files of other origin (deviation)",
 "For every SMET file (any lines before [HEADER], any entries 'key=value', fields and units_multiplier given once, any blanks, timestamp in any column, decimal numbers) read_smet with pandas versions that allow 'del index.name' returns the time stamps, the columns under their short names, missing where the number is -999, and otherwise the number times a multiplier: the column at place p among those other than timestamp gets entry p+1 (counted from 0) of units_multiplier, which is its own only if timestamp comes before it (deviation). Entries such as nodata and units_offset have no effect on the data (deviation). A units_multiplier entry of another length raises ValueError.",
 "every file of this form", "All texts, column orders and header entries.", [f"{IO}:read_smet"])

prop("C116", "Daily and hourly frame of a station belong together after any program, except for stepped frequencies (deviation)",
 "After any sequence of calls on any number of stations and statistics objects (constructors, assignments, statistics, disaggregation, including calls that raise): a station without data_daily has no data_disagg; data_disagg always has the five columns, each as long as its index; data_daily has strictly increasing days, full-length columns and no temperature below 200 K; and if its days are consecutive (or on pandas versions whose Index has to_datetime) data_disagg has exactly the 24 hours of each of its days. With a stepped frequency on current pandas data_disagg may still be that of the previous data (deviation).",
 "every program", "Quantifies over call histories.", [f"{ST}:Station"])

prop("C117", "Potential radiation supplied by the user is used at its own times",
 "disaggregate_radiation('pot_rad') with a supplied potential radiation returns a series with the labels of that series, whatever the days of data_daily: at each label the value divided by the mean of the supplied values of that day times the daily value, NaN before the first day, and after the last day the last daily value is used again (deviation). At a station the result is stored by label: hours without a supplied value become NaN, values at other times are ignored (but count in the mean), and when the supplied values of a day lie on full hours, those hours have the daily value as their mean up to the 0.01 cut-off; repeated labels raise ValueError and leave the station as it was.",
 "every supplied series", "All label sets.", [f"{RA}:disaggregate_radiation", f"{ST}:Station.disaggregate_radiation"])

prop("C118", "A call that lacks something raises; otherwise it succeeds",
 "On a station whose daily data cover consecutive days, whether disaggregate_wind, disaggregate_humidity, disaggregate_temperature or disaggregate_radiation raises, and which exception, is decided by the first missing thing in a fixed order, and with nothing missing the call succeeds: the method name, the columns of data_daily (AttributeError; 'min_max' humidity tests hum_min and hum_max with AssertionError), the fitted parameters (AssertionError for wind and humidity, AttributeError or TypeError for temperature), mean courses, monthly shifts and humidity classes that cover the months, hours and wet or dry days that occur (KeyError), sun times (AttributeError) and location (TypeError). The same for 'equal' precipitation; 'cascade' without statistics raises TypeError, 'masterstation' without the column AttributeError. Before any daily data every call raises AttributeError, except for unknown names of temperature (ValueError) and precipitation methods (UnboundLocalError). The function disaggregate_humidity without hourly temperatures raises AttributeError for the dew point methods and TypeError for 'min_max'.",
 "every station, statistics object and method name", "All combinations of missing things.", [f"{ST}:Station", f"{WI}:disaggregate_wind", f"{HU}:disaggregate_humidity", f"{TE}:disaggregate_temperature", f"{RA}:disaggregate_radiation"])

prop("C119", "A statistics call that lacks something raises; otherwise only the fits can fail",
 "Whether calc_wind_stats, calc_temperature_stats, calc_humidity_stats, calc_precipitation_stats and calc_radiation_stats raise, and which exception, is decided by the first missing thing in a fixed order. Without a record: AttributeError, but TypeError for humidity. Without the column: AttributeError for wind, temp and glob, KeyError for temp and hum in the humidity statistics and for precip in the precipitation statistics, AttributeError for precip in the humidity statistics, and this only after the regression has been stored. Without location: TypeError, for temperature always, for radiation only when daily data are given. A first season without months: UnboundLocalError; no season at all: no exception even without a record. An unknown 'how': AssertionError, before anything else. With nothing missing temperature statistics always succeed, and the others raise only what a fit raises (precipitation: IndexError, exactly when a season has too little rain).",
 "every statistics object, every record, every outcome of the fits", "All combinations of missing things.", [f"{SS}:StationStatistics.calc_precipitation_stats", f"{SS}:StationStatistics.calc_wind_stats", f"{SS}:StationStatistics.calc_humidity_stats", f"{SS}:StationStatistics.calc_temperature_stats", f"{SS}:StationStatistics.calc_radiation_stats", f"{PR}:build_casc", f"{HU}:calculate_dewpoint_regression"])

prop("C120", "Cascade statistics estimated in doubles, and the cascade that uses them",
 "If every observation is missing, zero or between 2^-300 and 2^300, the record has fewer than 2^53 rows and no season lists a month twice, then in the statistics build_casc computes in doubles (any percentile, 1 to 11 levels, averaged or not, any seasons) the three branching probabilities of each cell and the seven weights of each cell are finite, non-negative and sum exactly to 1 up to 2*10^-15 for the statistics of a level and 10^-14 for averaged ones. Disaggregating any non-negative daily amounts with them, to hours or to five minutes, does not raise as long as no random number lies within 2*10^-14 of 1. Without the last condition it may raise UnboundLocalError (deviation).",
 "every record, every percentile, every sequence of random numbers", "Whether the last cumulated weight reaches the random number depends on rounding; the failing random numbers have probability about 10^-14.", [f"{PR}:build_casc", f"{PR}:aggregate_precipitation", f"{PR}:disagg_prec_cascade", f"{CA}:CascadeStatistics"])

prop("C121", "Cascade statistics of a record of doubles are correctly rounded relative frequencies",
 "If every observation is missing, zero or between 2^-300 and 2^300 and the record has fewer than 2^53 rows, then each aggregation step takes as threshold the percentile of the non-zero sums of disjoint pairs (in doubles). If every one of the eight cells (volume class, position) contains a wet sum, each branching probability is the correctly rounded quotient of the number of pairs of the cell with that branching and the number of wet sums in the cell, and each weight is the correctly rounded quotient of the number of pairs whose share (computed in doubles) lies in the class and the number of pairs wet in both halves, or 1/7 rounded where there is none; if a cell contains no wet sum, all four tables are the shipped ones, rounded. build_casc applies this to the season's data and then to the sums of the previous step; with averaging, each entry is within 10^-14 of the mean of the steps' entries weighted with the numbers of sums, and the thresholds of all steps are kept in order.",
 "every record, every percentile, every number of steps (averaged: 1 to 11) and every grouping of months", "A count that is off by one, or a sum that rounds differently at one step of one long record, changes statistics that no test compares with an independent count.", [f"{PR}:build_casc", f"{PR}:aggregate_precipitation", f"{CA}:CascadeStatistics"])

prop("C122", "Humidity in doubles: the observed daily mean is restored and the dew point methods are accurate",
 "With preserve_daily_mean, whatever the method, an hourly temperature or coefficients: on a day whose observed humidity lies in 0..100 % and whose disaggregated values lie strictly between 0 and 100, the returned 24 values lie in 0..100, keep the order of the uncorrected values, and each is within 4*10^-12 of the uncorrected value minus (its daily mean minus the observation) cut to 0..100; if none of them reaches 0 or 100, their mean is the observation up to 4*10^-12. A day without observation is returned unchanged. Methods 'minimal' and 'dewpoint_regression' (any vapour pressure function with values between 2^-400 and 2^400): each value lies in 0..100, is within 3*10^-14 of 100 times the ratio of the vapour pressures at the dew point and at the hour cut at 100, and does not increase with the vapour pressure of the hour; with 'minimal' an hour at the daily minimum is at least 100 - 3*10^-14 but not always 100 (deviation).",
 "every record of days, every method, every way of averaging 24 values with relative error up to 3*10^-14", "Rounding of a daily mean or of a quotient shows in the twelfth digit of rare days; a test compares a few days with a tolerance.", [f"{HU}:disaggregate_humidity", f"{UT}:distribute_equally"])

prop("C123", "What estimating cascade statistics leaves in the record, and estimations over no level (deviation)",
 "Whether build_casc succeeds or raises, afterwards the missing values of the caller's precipitation column are zeros, unless no season is requested or the first season selects no month: then the column is unchanged. With hourly=False and level=0 the call raises ZeroDivisionError (UnboundLocalError if the first season selects no month, an empty list if there is no season), and ZeroDivisionError is raised in no other case.",
 "every record, season list, option and number type, every percentile function that raises for an empty array", "Failing calls are rarely followed by a look at the arguments; the failure can occur in any season and at any level.", [f"{PR}:build_casc", f"{PR}:seasonal_subset"])

prop("C124", "The daily radiation models and the random wind in doubles",
 "In double precision: angstroem returns for every day a finite value of at least 0 within 1e-15 of the potential radiation of (a + b*ssd/day_length)*pot, never decreasing in the sunshine duration and the potential radiation; with a + b = 1 a day of full sunshine can all the same exceed the potential radiation (deviation). bristow_campbell returns a finite value between 0 and A*pot, A*pot not above pot, 0 on a day without temperature range, and within a month never decreasing in the temperature range and the potential radiation, whatever days have missing temperatures. disaggregate_wind(method='random') returns for each hour the daily wind times (-ln u)^0.3 up to 1e-14, never negative, never above three times the daily wind; a draw of exactly 0 gives inf, or NaN on a calm day (deviation).",
 "every length, every parameter pair or monthly table, all temperatures within 500 degrees, every exp/log/power as good as stated, every order of summation, every draw k/2^53", "Rounding effects occur for single operands; the draws cannot be enumerated.", [f"{RA}:angstroem", f"{RA}:bristow_campbell", f"{WI}:disaggregate_wind"])

prop("C125", "Potential radiation in doubles",
 "In double precision, for flat terrain: at every time stamp the diffuse part of potential_radiation is a finite number within 1e-9 W/m2 of the formula evaluated exactly, and the direct part and the sum are within 1e-9 W/m2 as well unless they are NaN; the direct part is NaN exactly when the sine of the computed zenith angle or the cosine of the computed azimuth is NaN (for instance because the argument of the arc sine is rounded to more than 1; deviation). With the sun below the horizon by more than 1e-12 (sine of the elevation) the diffuse part is exactly 0 and the direct part exactly 0 or NaN. On any slope, at any time and place, each part is NaN or a finite number of at least 0, direct not above 6500 and diffuse not above 2200 W/m2, whatever the arc functions return.",
 "every time stamp, latitude and longitude up to 1000 degrees, time zone up to 100 hours, cloud fraction from 0 to 1, every sine and cosine correct to 1e-15 and bounded by 1, every arc sine and arc cosine", "Rounding effects occur for single operands.", [f"{RA}:potential_radiation"])

prop("C126", "Sun times in doubles",
 "In double precision get_sun_times gives one row per date in their order; at every place (the poles included) all four entries are finite, noon is within 1e-12 hours of the formula evaluated exactly, the day length is at least 0 and at most 24 hours plus 1e-11, and when noon lies between 0 and 24 so do sunrise and sunset. Up to 89 degrees of latitude: when the exact cosine of the sunrise hour angle is at most 0.999 in size, sunrise, sunset and day length are within 1e-8 hours of the exact ones (24 hours being added to a sunrise before 0 and taken from a sunset after 24, where only a time within 1e-8 of the limit may go either way); when it is below -1 by 1e-10 the sun never sets: sunrise and sunset 12 hours from noon and a day of 24 hours to 1e-11; when it is above 1 by 1e-10 the day length is exactly 0 and sunrise and sunset are noon.",
 "every list of dates, latitude and longitude up to 1000 degrees, time zone up to 100 hours, every sine, cosine, tangent and arc cosine correct to 1e-15", "Rounding effects occur for single operands; the polar cases depend on a rounded comparison.", [f"{UT}:get_sun_times"])

prop("C127", "Vapour pressure and dew point in doubles",
 "In double precision vapor_pressure is finite, never negative, within a relative error of 1.5e-13 (plus 1e-300) of the Magnus formula over water from the double 273.15 on and over ice below, exactly 0 for humidity 0, and for one temperature never decreases when the humidity increases. dewpoint_temperature is finite, within 1e-10 K of the exact dew point of the exact vapour pressure, at most 1e-10 K above the temperature, and within 1e-10 K of it at 100 percent; humidity 0 gives a missing dew point. A missing temperature or humidity gives a missing result and inputs of different length AssertionError. Hourly humidity by 'dewpoint_regression' and 'minimal' is therefore within 1e-10 of 100 times the quotient of the two exact saturation pressures, limited to 100.",
 "all temperatures from 150 to 400 K and humidities from 0 to 100 percent (at least 1e-6 percent for the dew point), every exponential function correct to 1e-15 relatively and logarithm correct to 1e-14", "Rounding effects occur for single operands, and the freezing point is itself rounded.", [f"{UT}:vapor_pressure", f"{UT}:dewpoint_temperature", f"{HU}:disaggregate_humidity"])

prop("C128", "Linear course of the dew point in doubles",
 "In double precision disaggregate_humidity with 'linear_dewpoint_variation' gives for every hour a value from 0 to 100 within 2e-9 percent of 100 times the exact saturation pressure at the exact dew point of that hour, divided by the exact saturation pressure at the air temperature, limited to 100; the exact dew point is a0 + a1 * tmin, moved linearly over the 24 hours to that of the following day (the last day being its own successor), plus 0.5 * sin((hour + 1) * pi / kr - 3 * pi / 4).",
 "every number of days, daily minima and hourly temperatures from 150 to 400 K, a0 up to 1000 and a1 up to 5 in size, kr 6 or 12, dew points from 151 to 399 K, every exponential function correct to 1e-15 relatively and sine correct to 1e-15", "The value depends on two days and on transcendental functions; rounding effects occur for single operands.", [f"{HU}:disaggregate_humidity", f"{UT}:vapor_pressure"])

prop("C129", "Hours of the temperature extremes from sun times in doubles",
 "In double precision disaggregate_temperature with a sine method and 'sun_loc' or 'sun_loc_shift', given the sun times of get_sun_times for its days, places the minimum of a day at the exact sunrise rounded to full hours, and the maximum two hours after the exact noon rounded to full hours; with monthly shifts at noon plus the shift of the month rounded to full hours, unless that is before the hour of the minimum, when it is two hours after noon again. (Within 2e-8 hours of a half hour either neighbour is possible.) Both are hours of the day. Every hour is within 1e-13 of the size of the extremes of the exact course with these hours, the day's maximum is found at the hour of the maximum and with the night-time variant the day's minimum at the hour of the minimum; 'sine_mean' keeps the daily mean.",
 "every number of days, place up to 89 degrees of latitude and time zone where each day has sunrise after midnight, three hours of daylight and noon before 21 o'clock; shifts of up to 8 hours that leave the maximum before 23 o'clock; every rounding to a nearest whole number and every trigonometric functions correct to 1e-15", "The hours depend on rounding errors of the sun times, which show only near half hours.", [f"{TE}:disaggregate_temperature", f"{UT}:get_sun_times"])

prop("C130", "Monthly shift of the temperature maximum in doubles",
 "In double precision get_shift_by_data on an hourly record of whole days has an entry for exactly the months into which days of the record fall; the entry is within 2e-9 hours of the mean, over the days of the month that have a value, of the first hour of the day's maximum less the exact solar noon of the day, and missing when no day of the month has a value. Temperatures disaggregated with 'sun_loc_shift' and this table have the maximum at noon plus that exact mean rounded to full hours (3e-8 hours around a half hour either neighbour is possible), or two hours after noon when this is before the hour of the minimum.",
 "every number of days, all temperatures finite or missing, every place and time zone, every mean correct to 1e-9; for the disaggregation the conditions of C129", "Rounding errors of the sun times and of the mean show only for single days; ties between equal maxima are rare in records.", [f"{TE}:get_shift_by_data", f"{TE}:disaggregate_temperature"])

prop("C131", "Calibrated shifts and months without data",
 "Disaggregating temperature with a sine method and 'sun_loc_shift', given a table of monthly shifts, raises KeyError when the month of some day is not in the table, whatever else the table holds; otherwise it raises ValueError when the shift of some day's month is missing; entries for months without a day of the record have no effect. With the table computed by get_shift_by_data from an hourly record this means: KeyError if some day falls in a month the record does not reach, else ValueError if some day falls in a month in which the record has no value, else the full hourly series of the days.",
 "every number of days, every table, every hourly record of whole days with numbers or missing values, all three sine methods, sun times with at least three hours of daylight", "A table with a gap fails only for data in the gap, so a test on one season passes.", [f"{TE}:disaggregate_temperature", f"{TE}:get_shift_by_data"])

prop("C132", "Humidity by month, hour and wet day in doubles",
 "In double precision a day of the observed record counts as wet exactly when one of its amounts is positive, however the sum of the day is formed. The entry of calculate_month_hour_precip_mean for a month, hour and kind of day exists exactly when the record has such an hour; it is within 1e-9 of the mean of the observed humidities of these hours, and missing when all of them are missing. disaggregate_humidity with 'month_hour_precip_mean' and this table raises KeyError when some hour of the daily record belongs to a class that was not observed, and otherwise gives every hour a humidity between 0 and 100 within 1e-9 of the mean of its class (missing if the class has no value); a day with missing precipitation counts as dry.",
 "every hourly record up to 2^53 rows with amounts from 0 to a million and humidities from 0 to 100, possibly missing; every number of days; every sum that is positive exactly when a term is, every mean correct to 1e-9", "Whether rounding can turn a wet day dry or move a mean out of its range is not a matter of examples.", [f"{HU}:calculate_month_hour_precip_mean", f"{HU}:disaggregate_humidity"])

prop("C133", "Radiation spread like the computed clear sky in doubles",
 "In double precision, disaggregate_radiation with 'pot_rad' and the potential radiation computed by potential_radiation for flat ground without clouds never fails on daily global radiation and returns 24 hours per day. On a day on which no computed potential value is missing and whose clear-sky mean is at least 1 W/m2, every hour is the daily value times the hour's share of the true clear-sky radiation, up to 3e-8 of the daily value, or exactly 0 where that amount is below 0.01 (up to the same error). An hour with the sun below the horizon is exactly 0, and the mean of the day is the daily value up to 0.01 W/m2 and 1e-13 of it.",
 "every number of days, every daily value up to 2^400, every place and time zone; every sine and cosine correct to 1e-15 and bounded by 1, every arc function, every mean correct to 3e-14", "The errors of the computed solar geometry and of the scaling have to be bounded together, for all places and days.", [f"{RA}:disaggregate_radiation", f"{RA}:potential_radiation"])

prop("C134", "When potential radiation computed in doubles is a number",
 "The azimuth of the sun is computed with an arc sine whose argument rounding may push above 1. Whenever the direction of the sun is at least 1e-5 off the great circle through east, zenith and west, or the sun is at least 1e-5 below the horizon, this does not happen: for every slope, azimuth and cloudiness potential_radiation returns a finite direct, diffuse and total value, and on flat ground the total is within 1e-9 W/m2 of the exact one. On such days disaggregate_radiation with 'pot_rad' spreads the daily value like the true clear sky, without asking anything of the computed values. On the equator this holds at every time of every day.",
 "every place, time zone, slope, azimuth, cloudiness and time; every sine and cosine and arc cosine correct to 1e-15, every arc sine returning numbers on -1..1", "One ulp in the argument of the arc sine decides between a number and NaN; tests sample a few places.", [f"{RA}:potential_radiation", f"{RA}:disaggregate_radiation"])

prop("C135", "Potential radiation on slopes in doubles",
 "On sloping terrain, potential_radiation in double precision returns a direct part within 1e-6 W/m2, a diffuse part within 1e-9 W/m2 and a total within 2e-6 W/m2 of the values of the published formulas in exact arithmetic, for every slope, azimuth and cloudiness, as long as the direction of the sun is at least 1e-3 off the great circle through east, zenith and west or the sun is at least 1e-3 below the horizon. The series it returns agrees to the same precision with the series of exact arithmetic.",
 "every place, time zone, slope, azimuth, cloudiness and time; every sine, cosine, arc sine and arc cosine correct to 1e-15", "The azimuth is computed as an arc sine of a quotient, which is ill-conditioned; only an error analysis tells where it is harmless.", [f"{RA}:potential_radiation"])

prop("C136", "Radiation from sunshine duration in doubles",
 "In double precision, disaggregate_radiation with 'pot_rad_via_ssd' succeeds on consecutive days when every day with daylight has its Angstroem parameters, and returns 24 hours per day. On a day whose potential values are not all next to nothing, whose parameters are between 0 and 1 and whose sunshine duration is not above the day length, the hours are the potential values scaled to a daily mean that is (a + b * ssd / daylength) times the mean potential radiation up to 1e-13; a day without daylight is exactly 0. With the potential radiation computed for flat ground without clouds, every hour is (a + b * ssd / daylength) times the true clear-sky radiation of that hour up to 2e-7 of the clear-sky mean, or exactly 0 where that is below 0.01, hours with the sun below the horizon are exactly 0, and the daily mean is right up to 0.01 W/m2 and 1e-8 of the clear-sky mean.",
 "every number of days, every sunshine duration, day length and parameters as stated, every place and time zone; every sine and cosine correct to 1e-15 and bounded by 1, every mean correct to 3e-14", "The daily mean is multiplied in by the sunshine model and divided out by the scaling; that the errors of all steps stay small together is a statement about all inputs.", [f"{RA}:disaggregate_radiation", f"{RA}:angstroem", f"{RA}:potential_radiation"])

prop("C137", "Radiation from the temperature range in doubles",
 "In double precision, disaggregate_radiation with 'pot_rad_via_bc' succeeds on consecutive days with a minimum and maximum column (missing entries allowed) and parameters for every month, and returns 24 hours per day. On a day with ordered temperatures, in a month of ordered or missing temperatures, whose potential values are not all next to nothing, the hours are the potential values scaled to a daily mean between 0 and A times the mean potential radiation (up to 1e-13); a day whose maximum equals the mean of the two minima around it is exactly 0. Of two days of the same calendar month with the same potential radiation, the one with the wider temperature range is not darker in any hour.",
 "every number of days, all temperatures within 500 degrees, A between 0 and 1, exponents up to 100; every exponential and power function that is monotone and right at 0, every monthly mean that is a number in range, every daily mean correct to 3e-14", "Monotonicity in floating point holds or fails by single roundings; no sample of temperatures shows it.", [f"{RA}:disaggregate_radiation", f"{RA}:bristow_campbell"])

prop("C138", "Sunshine duration and sun times that do not fit each other (deviation)",
 "disaggregate_radiation with 'pot_rad_via_ssd' accepts sun times that cover only some of the days: the days without sun times silently get radiation 0 in every hour, like days without daylight, while the days that are covered get (a + b * ssd / daylength) times their mean potential radiation in the shape of the potential radiation, and 24 missing hours where the sunshine duration is missing. If the sun times contain a day with daylight that is not in the daily data, the call raises KeyError. A sunshine duration above the day length is not limited: with a + b = 1 every hour with a potential radiation of at least 0.01 then exceeds the potential radiation.",
 "every number of days, every set of days covered by the sun times, every series of sunshine durations, parameters and potential radiation", "Tests use sun times computed for exactly the days of the data; the effect of any other combination is a statement about all of them.", [f"{RA}:disaggregate_radiation", f"{RA}:angstroem"])

prop("C139", "Radiation from the temperature range of a record with missing days",
 "bristow_campbell accepts daily temperatures with missing days. Its result has exactly the days of the record. A day whose following calendar day is missing from the record has no estimate (NaN), unless it is the last day, which takes its own minimum for the following one. Every other day with a positive temperature range gets A * (1 - exp(-B * range^C)) * potential radiation, the range being the maximum minus the mean of its own and the following day's minimum and B = 0.036 * exp(-0.154 * mean range), the mean taken over those days of the same calendar month, in all years, whose following day is known: the days before a gap do not enter it. Parameters may be numbers or given by month.",
 "every increasing list of days, all temperatures, potential radiation and parameters; the value formula for every kind of number and every implementation of mean, exp and power", "The gaps can be anywhere and of any length; a test fixes one.", [f"{RA}:bristow_campbell"])

prop("C140", "A record disaggregated as a whole or in pieces",
 "Cutting a gap-free daily record into two pieces, disaggregating each and putting the results one after the other gives the same hourly values as disaggregating the whole record, for: equal distribution (with or without division by 24), wind by 'equal' and 'cosine', temperature by 'mean_course_min_max' and 'mean_course_mean', temperature by 'sine_mean', humidity by 'equal', 'min_max', 'minimal' and 'dewpoint_regression' (each with or without the correction to the daily mean) and 'month_hour_precip_mean' (without it), radiation by 'pot_rad' and 'mean_course'. The other sine methods of temperature give the same values on all days except possibly the two days next to the cut, which lose a neighbour, and humidity by 'linear_dewpoint_variation' on all days except possibly the last day before the cut. It does not hold for the radiation model from the temperature range (bristow_campbell): the value of a day depends on the following day and on all days of its calendar month, so that a piece gives other values than the whole.",
 "every record, every place to cut it, missing values allowed, every course and potential radiation", "Every length and every cutting point; a test tries one.", [f"{UT}:distribute_equally", f"{WI}:disaggregate_wind", f"{TE}:disaggregate_temperature", f"{HU}:disaggregate_humidity", f"{RA}:disaggregate_radiation", f"{RA}:bristow_campbell"])

if __name__ == '__main__':
    out = os.path.join(os.path.dirname(os.path.abspath(__file__)), '..', 'properties.jsonl')
    with open(out, 'w') as f:
        for p in P:
            f.write(json.dumps(p, ensure_ascii=False) + '\n')
    print(len(P))
