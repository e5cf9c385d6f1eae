{"id": "C01", "title": "Cascade disaggregation conserves the daily total", "statement": "Whenever disagg_prec_cascade (hourly) returns a series for a gap-free midnight-indexed daily series of non-negative (or missing) amounts, the 24 hourly values of every non-missing day are non-negative and add up to exactly that day's amount (real arithmetic, i.e. no rounding).", "quantifier": "every daily series (any length, any amounts), every set of cascade statistics (valid or not, single object or per-level list), every sequence of random draws", "why_tests_cant": "The result depends on an unbounded random stream and on unbounded data; the test suite checks one data set and one random realisation with atol=1e-3.", "anchors": ["melodist/precipitation.py:disagg_prec_cascade"]}
{"id": "C02", "title": "Cascade output is never negative in IEEE double arithmetic", "statement": "With binary64 arithmetic exactly as numpy performs it (round-to-nearest, running cumsum, differences of cumsums), every hourly value returned by disagg_prec_cascade for finite non-negative daily amounts (bounded by 2^900, fewer than 2^46 days) is a finite number >= 0 (or NaN exactly on missing days).", "quantifier": "every daily series of doubles, all statistics, all draws", "why_tests_cant": "Differences of running sums are a classic source of tiny negative rain; only a proof over all double inputs excludes it.", "anchors": ["melodist/precipitation.py:disagg_prec_cascade"]}
{"id": "C03", "title": "Dry days stay exactly dry", "statement": "A day whose amount is 0.0 gets 24 hourly values that are exactly 0.0 in binary64 arithmetic, whatever happens on the other days.", "quantifier": "every daily series of bounded non-negative doubles, all statistics, all draws, every dry day", "why_tests_cant": "The hourly values come from a cumulative sum over the whole series, so leakage from earlier days could only be found on particular inputs.", "anchors": ["melodist/precipitation.py:disagg_prec_cascade"]}
{"id": "C04", "title": "Missing days come back as 24 missing hours and only those", "statement": "In the output of disagg_prec_cascade (shift=0) an hour is NaN if and only if the daily amount of its day was NaN, and replacing a missing amount by 0 changes no hour of any other day.", "quantifier": "every daily series with any pattern of missing values, all statistics, all draws", "why_tests_cant": "Ranges over all missing-value patterns.", "anchors": ["melodist/precipitation.py:disagg_prec_cascade"]}
{"id": "C05", "title": "Cascade output covers every hour of every input day once, in order", "statement": "For a gap-free midnight-indexed daily series of n >= 2 days the hourly cascade result (when one is returned) has exactly the 24*n hourly time stamps from the first day 00:00 to the last day 23:00, ascending, each once; with fewer than two days ValueError is raised; with daily time stamps at any hour from 1 to 23 no series is returned (the hourly index comes out too short).", "quantifier": "every series length, every start date, every number type (holds for any arithmetic)", "why_tests_cant": "Quantifies over all lengths and dates.", "anchors": ["melodist/precipitation.py:disagg_prec_cascade", "melodist/util/util.py:hourly_index"]}
{"id": "C06", "title": "shift moves the hourly series by whole steps", "statement": "disagg_prec_cascade(..., shift=k) returns the shift=0 result for the same draws with the same time stamps and with value j+k taken from position j, NaN elsewhere (both signs of k, also |k| larger than the series).", "quantifier": "every series, every integer shift, all statistics and draws", "why_tests_cant": "All shifts, all lengths.", "anchors": ["melodist/precipitation.py:disagg_prec_cascade"]}
{"id": "C07", "title": "The branching decision follows the probability table", "statement": "For a wet box and draw u: (0,x) is produced iff u <= P(0/1); otherwise (x,0) iff u <= P(0/1)+P(1/0); otherwise the box is split into w and 1-w with w one of the seven class centres, chosen as the first class whose cumulative weight is >= a fresh second draw. The box's own type (starting/enclosed/ending/isolated, from its neighbours) and its volume class (above/below the level threshold) select the table cell. The 'error' early return (None) is unreachable.", "quantifier": "every box position, every neighbour configuration, every table, every draw; binary64 and exact", "why_tests_cant": "All table/draw combinations including boundary equality.", "anchors": ["melodist/precipitation.py:disagg_prec_cascade", "melodist/cascade.py:BoxTypes"]}
{"id": "C08", "title": "Well-formed statistics never make the cascade fail", "statement": "If every cell's cumulative weight reaches at least every possible draw (>= 1), the threshold vector covers the levels and amounts are non-negative or missing, disagg_prec_cascade returns a series for every draw sequence.", "quantifier": "every series of >= 2 days, all such statistics, all draws", "why_tests_cant": "A failure would need one specific random draw out of 2^53.", "anchors": ["melodist/precipitation.py:disagg_prec_cascade"]}
{"id": "C09", "title": "Rounded weights can make the cascade crash (deviation)", "statement": "With the statistics the library itself ships (fill_with_sample_data) and also with the 1/7 default weights that aggregate_precipitation fills in, the binary64 cumulative weight of some cells is below the largest possible draw 1-2^-53; there are valid draws for which disagg_prec_cascade raises UnboundLocalError, and draws for which it silently reuses the weight of an unrelated earlier box.", "quantifier": "existence of input and draws (witness), in binary64; complements C08", "why_tests_cant": "The failing draw has probability 2^-53 per box; random tests will not meet it.", "anchors": ["melodist/precipitation.py:disagg_prec_cascade", "melodist/cascade.py:CascadeStatistics.fill_with_sample_data", "melodist/precipitation.py:aggregate_precipitation"]}
{"id": "C10", "title": "Argument errors of the cascade are rejected before any random number is drawn", "statement": "disagg_prec_cascade raises ValueError for fewer than two days, ValueError for a statistics list whose length differs from the number of levels, TypeError for any other options type, IndexError when a single statistics object has too few thresholds; disagg_prec raises ValueError for any unknown method name.", "quantifier": "every argument combination", "why_tests_cant": "All lengths and strings.", "anchors": ["melodist/precipitation.py:disagg_prec_cascade", "melodist/precipitation.py:disagg_prec"]}
{"id": "C11", "title": "5-minute cascade conserves the daily total", "statement": "disagg_prec_cascade(hourly=False, level) for a gap-free midnight-indexed series of non-negative amounts returns 288 5-minute values per day, non-negative, adding up to the daily amount (exact arithmetic), for levels 9, 10 and 11.", "quantifier": "every series, all statistics (single with enough thresholds, or lists), all draws, levels 9, 10, 11", "why_tests_cant": "Unbounded data and draws.", "anchors": ["melodist/precipitation.py:disagg_prec_cascade", "melodist/precipitation.py:sub_level_index"]}
{"id": "C12", "title": "Every level of the cascade uses the statistics of its own level", "statement": "With a list of per-level statistics, the step that splits days uses the last list element, the next one the one before, ..., the finest step the first one (matching the order in which build_casc produces them); with a single object the thresholds are consumed in the same order.", "quantifier": "all lists, all series, all draws", "why_tests_cant": "Order errors are invisible in aggregate statistics of one realisation.", "anchors": ["melodist/precipitation.py:disagg_prec_cascade", "melodist/precipitation.py:build_casc"]}
{"id": "C13", "title": "Aggregation sums disjoint pairs", "statement": "aggregate_precipitation returns a series of floor(n/2) values whose j-th value is x[2j]+x[2j+1] stamped with the time of x[2j+1]; for even n the total is unchanged (exact arithmetic).", "quantifier": "every input series", "why_tests_cant": "All lengths and values.", "anchors": ["melodist/precipitation.py:aggregate_precipitation"]}
{"id": "C14", "title": "Branching probabilities form a probability distribution in every cell", "statement": "For non-negative data, whenever aggregate_precipitation does not fall back to default statistics, P(0/1), P(1/0), P(x/x) of each of the 8 cells are >= 0 and sum to 1 (exact arithmetic); in the fallback case the three tables are exactly the shipped sample tables.", "quantifier": "every non-negative input series, every percentile", "why_tests_cant": "All data sets.", "anchors": ["melodist/precipitation.py:aggregate_precipitation", "melodist/cascade.py:CascadeStatistics.fill_with_sample_data"]}
{"id": "C15", "title": "Weight histograms form a probability distribution in every cell", "statement": "For non-negative data the seven weights of each cell returned by aggregate_precipitation (when probabilities are not replaced by defaults) are >= 0 and sum to 1 (exact arithmetic); cells without any x/x branching get 1/7 each.", "quantifier": "every non-negative input series", "why_tests_cant": "All data sets.", "anchors": ["melodist/precipitation.py:aggregate_precipitation"]}
{"id": "C16", "title": "Default fallback happens exactly when a cell was never observed, and keeps the threshold", "statement": "aggregate_precipitation returns the shipped sample tables iff some (volume class, box type) cell contains no wet box; the returned threshold is in every case the percentile of the wet aggregated values.", "quantifier": "every input series", "why_tests_cant": "All data sets.", "anchors": ["melodist/precipitation.py:aggregate_precipitation"]}
{"id": "C17", "title": "The weight plausibility check never rejects anything (deviation)", "statement": "The test `wxx.any() > 1.001 or wxx.any() < 0.999` that is meant to detect weights not summing to 1 is never true after NaN weights have been replaced by 1/7: whatever the weights, they are accepted.", "quantifier": "every weight table containing at least one replaced entry", "why_tests_cant": "Needs a universal argument over all tables.", "anchors": ["melodist/precipitation.py:aggregate_precipitation"]}
{"id": "C18", "title": "Averaged statistics are probabilities again", "statement": "build_casc(avg_stats=True) on non-negative data: in every cell the averaged P(0/1)+P(1/0)+P(x/x) equals 1 and the averaged weights sum to 1 whenever those of all levels do, entries stay in [0,1]; thresholds[i] is the threshold of level i.", "quantifier": "every list of per-level statistics and level lengths (count > 0)", "why_tests_cant": "All data sets.", "anchors": ["melodist/precipitation.py:build_casc", "melodist/cascade.py:CascadeStatistics.__add__", "melodist/cascade.py:CascadeStatistics.__mul__"]}
{"id": "C19", "title": "Per-level statistics returned by build_casc are not disturbed by the averaging", "statement": "build_casc(avg_stats=False) returns for every level exactly the statistics computed by aggregate_precipitation for that level, although the same objects are afterwards scaled and added in place: the shallow copies alias no array that is mutated later.", "quantifier": "every number of levels, every statistics content (heap model with aliasing)", "why_tests_cant": "Aliasing bugs depend on object identity, invisible for values that happen to coincide.", "anchors": ["melodist/precipitation.py:build_casc", "melodist/cascade.py:CascadeStatistics.__mul__", "melodist/cascade.py:CascadeStatistics.__add__"]}
{"id": "C20", "title": "build_casc overwrites the caller's missing values and uses them inconsistently (deviation)", "statement": "After build_casc the caller's observation frame has every missing precipitation value replaced by 0; the first season is evaluated on the data with missing values, all later seasons on the zero-filled data, so the statistics of a season can depend on its position in the list and on how often build_casc was called before.", "quantifier": "every observation series; witness for the dependence", "why_tests_cant": "Needs the comparison of two histories for all inputs.", "anchors": ["melodist/precipitation.py:build_casc", "melodist/stationstatistics.py:StationStatistics.calc_precipitation_stats"]}
{"id": "C21", "title": "Master-station disaggregation preserves the daily total and the master's pattern", "statement": "If the master station has 24 values on a day with non-zero sum, the hourly result is proportional to the master's values and sums to the daily amount; if the sum is zero, 'uniform' gives daily/24 each hour and any other zerodiv gives 0. A day without any master value between the master's first and last day is treated like a zero sum; a day before or after the master's record raises KeyError for the whole call.", "quantifier": "every daily series, every master series, every zerodiv", "why_tests_cant": "All master patterns.", "anchors": ["melodist/precipitation.py:precip_master_station"]}
{"id": "C22", "title": "Equal distribution of precipitation preserves the daily total", "statement": "disagg_prec(method='equal') gives every hour of a day the daily amount divided by 24 (NaN for missing days), so that 24 hours sum to the daily amount in exact arithmetic; shift and statistics arguments are ignored.", "quantifier": "every gap-free daily series over any number of months and years", "why_tests_cant": "Spans over month/year boundaries of every length.", "anchors": ["melodist/precipitation.py:disagg_prec", "melodist/util/util.py:distribute_equally"]}
{"id": "C23", "title": "seasonal_subset selects exactly the requested months", "statement": "seasonal_subset(df, months) returns, in chronological order, exactly the rows whose month is in months ('all' = the whole series); listing the 12 months in any grouping partitions the series; an empty month list raises.", "quantifier": "every chronological series, every list of distinct months", "why_tests_cant": "All calendars.", "anchors": ["melodist/precipitation.py:seasonal_subset"]}
{"id": "C24", "title": "hourly_index is complete and exact", "statement": "For a daily index at midnight without gaps hourly_index returns the strictly ascending list of all 24 hours of exactly these days; for an index with gaps it returns exactly the hours of the listed days on pandas versions that still provide Index.to_datetime/pd.datetime and raises AttributeError on current ones.", "quantifier": "every daily index", "why_tests_cant": "All spans and gap patterns.", "anchors": ["melodist/util/util.py:hourly_index"]}
{"id": "C25", "title": "distribute_equally gives each hour the value of its own day", "statement": "For any gap-free midnight daily series (spanning any number of months, any missing values) every hour of the result carries exactly its own day's value (divided by 24 if requested); missing days stay missing: no value leaks to the same day-of-month of another month although grouping is by day of month.", "quantifier": "every daily series, any arithmetic (also binary64)", "why_tests_cant": "The grouping key repeats every month; leakage needs particular missing-value patterns over several months.", "anchors": ["melodist/util/util.py:distribute_equally"]}
{"id": "C26", "title": "detect_gaps counts exactly the irregular steps", "statement": "On pandas versions where Timedelta.delta exists, detect_gaps returns the number of consecutive index pairs whose difference is not the given time step, independent of all printing options; 0 iff the index is equidistant. On current pandas it raises AttributeError for any frame with two or more rows.", "quantifier": "every index, time step and print option", "why_tests_cant": "All indices.", "anchors": ["melodist/util/util.py:detect_gaps"]}
{"id": "C27", "title": "drop_incomplete_days: what is removed, and when an incomplete day survives (deviation)", "statement": "The result is a contiguous block of the input rows. If some row is stamped first:00 and a later row last:00, the result starts with the first row stamped first:00 and ends with the last row stamped last:00. A frame that starts at first:00 and contains no last:00 row is reduced to its first row, which is not a full day, contrary to the documented 'full days only'.", "quantifier": "every ascending hourly index without duplicates, every shift", "why_tests_cant": "All start/end hour combinations.", "anchors": ["melodist/util/util.py:drop_incomplete_days"]}
{"id": "C28", "title": "Aggregating an equal disaggregation gives the daily values back", "statement": "daily_from_hourly(distribute_equally(daily, divide=True)) reproduces daily precipitation sums, and without divide reproduces daily means, for non-missing days; a missing precipitation day comes back as 0, not as missing.", "quantifier": "every gap-free daily series", "why_tests_cant": "Round trip over all series.", "anchors": ["melodist/util/util.py:daily_from_hourly", "melodist/util/util.py:distribute_equally"]}
{"id": "C29", "title": "daily_from_hourly orders minimum, mean and maximum", "statement": "For every day with at least one valid hour daily_from_hourly yields tmin <= mean <= tmax, and tmin/tmax are attained by an hour of that day. The other columns hold the mean (glob, hum, wind), the sum (precip), the extremes (hum_min, hum_max) or the sum of minutes in hours (ssd) of the day's valid values; only columns whose source is present appear. A recorded day without a valid hour is missing, except that its precipitation and sunshine duration are 0 (deviation).", "quantifier": "every hourly series", "why_tests_cant": "All series.", "anchors": ["melodist/util/util.py:daily_from_hourly"]}
{"id": "C30", "title": "Normalised mean courses span exactly [0,1]", "statement": "calculate_mean_daily_course_by_month(normalize=True): for every month with at least two different hourly means all values lie in [0,1] and both 0 and 1 are attained; a month with a constant course yields only NaN. Normalised or not, the table has exactly the months and the hours that occur in the record, ascending, and an hour without values in a month is NaN there.", "quantifier": "every hourly series", "why_tests_cant": "All series.", "anchors": ["melodist/util/util.py:calculate_mean_daily_course_by_month"]}
{"id": "C31", "title": "Vapour pressure is positive, linear in humidity, increasing in temperature and continuous at 0 C", "statement": "vapor_pressure(T,h) over real arithmetic: proportional to h, > 0 for h > 0, strictly increasing in T on each side of 273.15 K and across it for T > 0 K physical range, equal to 6.112*h/100 at 273.15 K from both branches; NaN temperature gives NaN.", "quantifier": "every temperature above the singularities, every humidity", "why_tests_cant": "Continuum.", "anchors": ["melodist/util/util.py:vapor_pressure"]}
{"id": "C32", "title": "Dew point is the inverse of vapour pressure and never exceeds the temperature", "statement": "dewpoint_temperature(T,100) = T; for 0 < h <= 100 it is <= T; vapor_pressure(dewpoint,100) = vapor_pressure(T,h) whenever T and the dew point lie on the same side of 273.15 K (and can differ otherwise).", "quantifier": "every physical T and h", "why_tests_cant": "Continuum.", "anchors": ["melodist/util/util.py:dewpoint_temperature", "melodist/util/util.py:vapor_pressure"]}
{"id": "C33", "title": "Sun times: day length within [0,24], noon in the middle", "statement": "get_sun_times: for |lat| < 90 and every date 0 <= daylength <= 24 and finite; daylength = 24 exactly under midnight sun, 0 in polar night; before the wrap to [0,24) solar noon is the midpoint of sunrise and sunset; after the wrap sunset - sunrise equals daylength up to a multiple of 24.", "quantifier": "every day of year, latitude, longitude, time zone", "why_tests_cant": "Continuum.", "anchors": ["melodist/util/util.py:get_sun_times"]}
{"id": "C34", "title": "Sine method: every hourly temperature stays between neighbouring extremes", "statement": "disaggregate_temperature('sine_min_max') without night-time modification: every hour of a day lies between min(tmin today, tmin next day) and max(tmax previous day, tmax today), given tmin<=tmax across adjacent days.", "quantifier": "every daily series, every min/max location", "why_tests_cant": "Continuum of inputs.", "anchors": ["melodist/temperature.py:disaggregate_temperature"]}
{"id": "C35", "title": "Sine method attains tmax at the time of maximum and tmin 12 h before it; the day's minimum can still be missed (deviation)", "statement": "At hour max_loc (min_loc <= max_loc <= 23) the value is exactly the day's tmax and at hour max_loc-12 (if 0 <= max_loc-12 ) exactly the day's tmin; but hours after max_loc use the next day's tmin, so the smallest hourly value of a day can be below the day's tmin.", "quantifier": "every daily series; witness for the deviation", "why_tests_cant": "Continuum.", "anchors": ["melodist/temperature.py:disaggregate_temperature"]}
{"id": "C36", "title": "sine_mean preserves the daily mean and the diurnal range", "statement": "disaggregate_temperature('sine_mean'): the mean of the 24 values equals the daily mean exactly and max-min equals tmax-tmin (tmax>=tmin), for every integer time of maximum.", "quantifier": "every daily series, every integer max_loc", "why_tests_cant": "Continuum.", "anchors": ["melodist/temperature.py:disaggregate_temperature"]}
{"id": "C37", "title": "mean_course_min_max preserves daily minimum and maximum", "statement": "With a mean course produced by calculate_mean_daily_course_by_month(normalize=True), the smallest/largest hourly value of each day equals tmin/tmax.", "quantifier": "every daily series with tmin<=tmax, every course with min 0 and max 1 per month", "why_tests_cant": "Continuum.", "anchors": ["melodist/temperature.py:disaggregate_temperature", "melodist/util/util.py:calculate_mean_daily_course_by_month"]}
{"id": "C38", "title": "mean_course_mean preserves the daily mean", "statement": "The mean of the 24 hourly values of each day equals the daily mean temperature and the range equals (tmax-tmin) times the range of the course.", "quantifier": "every daily series, every mean course", "why_tests_cant": "Continuum.", "anchors": ["melodist/temperature.py:disaggregate_temperature"]}
{"id": "C39", "title": "Night-time modified sine stays between the extremes and hits them", "statement": "With mod_nighttime=True and 0<=min_loc<max_loc<=23 every value lies between the applicable minimum and maximum, the value at min_loc is the minimum and the value at max_loc the maximum.", "quantifier": "every daily series, all min_loc<max_loc", "why_tests_cant": "Continuum.", "anchors": ["melodist/temperature.py:disaggregate_temperature"]}
{"id": "C40", "title": "Sine methods raise as soon as one day is a polar-night day (deviation)", "statement": "disaggregate_temperature with a sine method raises (ValueError or AttributeError) on current pandas whenever any day has a day length below 3 h, and otherwise never enters the polar branch.", "quantifier": "every daily series and sun-times table", "why_tests_cant": "All tables.", "anchors": ["melodist/temperature.py:disaggregate_temperature"]}
{"id": "C41", "title": "Radiation scaling preserves the daily mean up to the 0.01 cut-off", "statement": "disaggregate_radiation('pot_rad'/'mean_course'): for a day with positive mean potential radiation and daily mean g >= 0, hourly values are >= 0 and the daily mean of the result is within 0.01 of g (exactly g if no value is below 0.01); hours with zero potential radiation get 0.", "quantifier": "every non-negative potential course, every g", "why_tests_cant": "Continuum.", "anchors": ["melodist/radiation.py:disaggregate_radiation"]}
{"id": "C42", "title": "No potential radiation gives NaN, not zero (deviation)", "statement": "On a day whose mean potential radiation is 0 (polar night) every hourly value returned by disaggregate_radiation is NaN.", "quantifier": "every such day", "why_tests_cant": "All inputs.", "anchors": ["melodist/radiation.py:disaggregate_radiation"]}
{"id": "C43", "title": "Potential radiation is finite, non-negative, bounded, and zero at night", "statement": "potential_radiation on flat terrain without clouds: direct and diffuse parts are >= 0, total = direct + diffuse, zero whenever the sun is below the horizon, and at most 1367*1.0351*0.8*cos(zenith); the arcsine argument never leaves [-1,1] in real arithmetic.", "quantifier": "every day of year, hour, longitude, latitude, time zone with the sun not exactly in the zenith", "why_tests_cant": "Continuum.", "anchors": ["melodist/radiation.py:potential_radiation"]}
{"id": "C44", "title": "Angstroem and Bristow-Campbell models stay within potential radiation", "statement": "angstroem with a,b >= 0 lies between a*pot and (a+b)*pot for 0<=ssd<=daylength and increases with ssd; bristow_campbell with 0<=A<=1, C>0 and dT>=0 lies in [0, A*pot]; days with zero day length get 0 in 'pot_rad_via_ssd'.", "quantifier": "every admissible input", "why_tests_cant": "Continuum.", "anchors": ["melodist/radiation.py:angstroem", "melodist/radiation.py:bristow_campbell", "melodist/radiation.py:disaggregate_radiation"]}
{"id": "C45", "title": "calc_radiation_stats(how='monthly') skips the Bristow-Campbell fit when sunshine data are present (deviation)", "statement": "month_ranges is a one-shot iterator for how='monthly': if the Angstroem loop runs, the Bristow-Campbell loop runs zero times and the bristcamp table keeps its previous values; for how='all' and 'seasonal' every month receives exactly the fitted values of its own range.", "quantifier": "every fitting oracle and every data set", "why_tests_cant": "Needs reasoning over all fit results.", "anchors": ["melodist/stationstatistics.py:StationStatistics.calc_radiation_stats"]}
{"id": "C46", "title": "Hourly humidity is always within [0,100] or missing", "statement": "Every value returned by disaggregate_humidity is NaN or lies in [0,100], for every method and option.", "quantifier": "every input, every method, exact arithmetic and binary64", "why_tests_cant": "All inputs.", "anchors": ["melodist/humidity.py:disaggregate_humidity"]}
{"id": "C47", "title": "Humidity min_max interpolates between the daily extremes", "statement": "method='min_max': hour temperature tmin gives hum_max, tmax gives hum_min, temperatures in between give values between hum_min and hum_max, decreasing in temperature. Hourly temperatures may be given on any increasing index: hours they do not cover and labels outside the days are missing in the result.", "quantifier": "every daily data with tmin<tmax, hum_min<=hum_max in [0,100]", "why_tests_cant": "Continuum.", "anchors": ["melodist/humidity.py:disaggregate_humidity"]}
{"id": "C48", "title": "Humidity 'minimal': saturation exactly at the daily minimum temperature", "statement": "method='minimal': an hour with temperature equal to the day's tmin has relative humidity 100, warmer hours have strictly less, colder ones are clipped to 100.", "quantifier": "every physical temperature", "why_tests_cant": "Continuum.", "anchors": ["melodist/humidity.py:disaggregate_humidity", "melodist/util/util.py:vapor_pressure"]}
{"id": "C49", "title": "preserve_daily_mean restores the observed daily mean unless clipping intervenes", "statement": "With preserve_daily_mean=True, if all corrected values of a day lie in [0,100], the mean of the day's hourly values equals the observed daily humidity; if clipping occurs the mean can differ.", "quantifier": "every day, every method output", "why_tests_cant": "Continuum.", "anchors": ["melodist/humidity.py:disaggregate_humidity"]}
{"id": "C50", "title": "Cosine wind preserves b times the daily mean and stays non-negative for |a|<=b", "statement": "disaggregate_wind('cosine'): the mean of the 24 hourly values equals b times the daily mean for every real t_shift; values are >= 0 if |a| <= b and wind >= 0; 'equal' reproduces the daily mean.", "quantifier": "every daily series, all parameters", "why_tests_cant": "Continuum.", "anchors": ["melodist/wind.py:disaggregate_wind", "melodist/wind.py:_cosine_function"]}
{"id": "C51", "title": "Random wind is non-negative for draws in (0,1) and breaks for draw 0 (deviation)", "statement": "disaggregate_wind('random') gives a finite value >= 0 for every draw in (0,1) and wind >= 0; numpy's rand can return 0, for which the value is infinite (wind>0) or NaN (wind=0).", "quantifier": "every draw sequence", "why_tests_cant": "Draw 0 has probability 2^-53.", "anchors": ["melodist/wind.py:disaggregate_wind"]}
{"id": "C52", "title": "Station and its statistics object agree on location and time zone", "statement": "After any sequence of constructor/setter calls (lon, lat, timezone, statistics, data_daily) on stations that never share a statistics object, station.statistics carries the station's current lon, lat and timezone; if one statistics object is assigned to two stations this can fail for the first one. An assignment to lon, lat or timezone changes that attribute of the station and of its statistics object and nothing else anywhere; an assignment to statistics writes the station's place into the object and changes nothing else; anything that is no statistics object raises AssertionError and changes nothing.", "quantifier": "every operation sequence; witness for sharing", "why_tests_cant": "Quantifies over histories.", "anchors": ["melodist/station.py:Station.lon", "melodist/station.py:Station.statistics", "melodist/station.py:Station.__init__"]}
{"id": "C53", "title": "Assigning data_daily yields a gap-free daily frame and a fresh all-missing hourly frame", "statement": "After a successful assignment data_daily has exactly one row per calendar day from first to last day, containing the assigned values on the given days and NaN elsewhere; data_disagg has 24 rows per day, all five columns all-NaN; sun_times has been recomputed iff the time zone is set.", "quantifier": "every frame", "why_tests_cant": "All frames.", "anchors": ["melodist/station.py:Station.data_daily"]}
{"id": "C54", "title": "A rejected data_daily leaves the station unchanged, except for stepped frequencies (deviation)", "statement": "If assignment raises because of type, resolution, ordering, duplicates or implausible temperature, no attribute of the station changes, and a constructor call given such data creates no station; type, index, resolution and order are checked first (AssertionError), then an empty frame (IndexError) or duplicate days (ValueError) without frequency, then the temperatures (AssertionError); with an index frequency of several days the assignment raises on current pandas after data_daily was already replaced, leaving data_daily and data_disagg inconsistent.", "quantifier": "every frame and prior station state", "why_tests_cant": "Exception-safety over all states.", "anchors": ["melodist/station.py:Station.data_daily"]}
{"id": "C55", "title": "Each disaggregate_* call changes only its own column, and nothing if it raises", "statement": "Station.disaggregate_{wind,humidity,temperature,precipitation,radiation} only modify the corresponding column of data_disagg (radiation additionally may fill sun_times); when the underlying function raises, data_disagg is unchanged.", "quantifier": "every call sequence and method argument", "why_tests_cant": "Quantifies over histories.", "anchors": ["melodist/station.py:Station"]}
{"id": "C56", "title": "sun_times are not updated when the location changes (deviation)", "statement": "Changing lon, lat or timezone after data_daily leaves sun_times as computed for the old location; only a new data_daily assignment or calc_sun_times refreshes it.", "quantifier": "every operation sequence", "why_tests_cant": "Histories.", "anchors": ["melodist/station.py:Station.lon", "melodist/station.py:Station.calc_sun_times"]}
{"id": "C57", "title": "CascadeStatistics survive the dictionary/JSON round trip", "statement": "Storing a statistics object as JSON and reading it gives back the same cells, thresholds and percentile, and the result is equal (==) to the original exactly when the original has no NaN; a dictionary with a table of any other shape raises AssertionError (ragged: ValueError), one lacking an entry KeyError; == compares all tables, thresholds and the percentile, is reflexive exactly on NaN-free objects and != is its negation.", "quantifier": "every statistics object", "why_tests_cant": "All contents.", "anchors": ["melodist/cascade.py:CascadeStatistics.from_dict", "melodist/cascade.py:CascadeStatistics.__eq__", "melodist/stationstatistics.py:StationStatistics.to_json"]}
{"id": "C58", "title": "StationStatistics survive to_json/from_json if the courses cover all twelve months", "statement": "from_json(to_json(s)) reproduces wind, precip, humidity, temperature and radiation statistics (tables up to the 10 decimals pandas writes) whenever mean courses have columns 1..12 and the humidity table does not have exactly one row; the rows come back sorted; coordinates, time zone and data are not stored; a second round trip changes nothing; with fewer months from_json raises KeyError, with a one-row humidity table AttributeError; to_json succeeds exactly for unique labels and cascade statistics given as objects or lists of objects.", "quantifier": "every statistics content", "why_tests_cant": "All contents.", "anchors": ["melodist/stationstatistics.py:StationStatistics.to_json", "melodist/stationstatistics.py:StationStatistics.from_json"]}
{"id": "C59", "title": "Bunch: attribute and item access always agree, copies are independent", "statement": "After any sequence of attribute/item assignments and updates b.k and b['k'] agree for every key that is not an attribute of the dict type itself; a public name that is no key gives a method of dict if it is one of the eleven, else AttributeError; rebinding in a shallow copy never shows in the original, mutating a shared value does; a deep copy has the same content and shares no object with the original, but loses sharing between nested bunches and does not end on cyclic ones; a bunch with the key 'self' cannot be copied (deviations).", "quantifier": "every operation sequence", "why_tests_cant": "Histories and aliasing.", "anchors": ["melodist/util/bunch.py:Bunch"]}
{"id": "C60", "title": "SMET hourly round trip", "statement": "For pandas versions that allow 'del index.name', write_smet(mode='h') followed by read_smet(mode='h') succeeds and gives back the same columns, time stamps cut to whole minutes and values rounded to two decimals (half a hundredth off at most); missing values come back missing exactly if the marker prints as -999.00 (or is itself missing), and every number that prints as -999.00 is lost (deviation). With later pandas read_smet raises AttributeError on every such file (deviation).", "quantifier": "every frame with known distinct columns and four-digit years, every single-line header, every marker", "why_tests_cant": "All frames, numbers and headers.", "anchors": ["melodist/data_io.py:write_smet", "melodist/data_io.py:read_smet"]}
{"id": "C61", "title": "SMET daily round trip exchanges tmin and tmax (deviation)", "statement": "Writing with mode='d' and reading with mode='d' returns a frame in which the columns tmin and tmax are exchanged and all other known columns are unchanged.", "quantifier": "every frame", "why_tests_cant": "Dictionary mistake, needs symmetrical data to be caught.", "anchors": ["melodist/data_io.py:write_smet", "melodist/data_io.py:read_smet"]}
{"id": "C62", "title": "SMET header values are cut at '=' and write_smet modifies the caller's metadata (deviation)", "statement": "Each header entry comes back with stripped key and with its value cut at the first '=' and stripped; entries already stripped and without '=' come back unchanged; a header line without '=' raises IndexError; write_smet sets the keys fields and units_multiplier in the dictionary passed by the caller and leaves all other entries alone.", "quantifier": "every metadata dictionary of single-line strings whose keys differ after stripping", "why_tests_cant": "All strings.", "anchors": ["melodist/data_io.py:read_smet", "melodist/data_io.py:write_smet"]}
{"id": "C63", "title": "write_smet with an unknown mode destroys the target file (deviation)", "statement": "write_smet with a mode other than 'd' and 'h' raises for every frame with at least one row (NameError, from Python 3.12 UnboundLocalError) after the target file has been opened for writing: its previous content is lost. For a frame without rows the call succeeds, and with check_nan=False it adds a column 'timestamp' to the caller's frame.", "quantifier": "every frame and header", "why_tests_cant": "Effect ordering.", "anchors": ["melodist/data_io.py:write_smet"]}
{"id": "C64", "title": "KNMI reader: time stamps, units, missing values, several files", "statement": "A record (YYYYMMDD, HH) of an existing date with HH from 1 to 24 gets the time stamp day + HH hours (24 is 00:00 of the next day); any other date or hour raises ValueError. temp = T/10+273.15, precip = max(RH/10,0), glob = Q*10000/3600, hum = U, wind = FH/10, ssd = 6*SQ, missing stays missing; in doubles no precipitation value is negative; the code -1 for sunshine becomes -6 minutes instead of 0 (deviation). Several files are put one after the other in directory order, neither sorted nor freed of repeated times (deviation). With pandas versions that have no pd.datetime every file with a record raises (deviation).", "quantifier": "every list of records, every list of files", "why_tests_cant": "All records and all calendar dates including leap years.", "anchors": ["melodist/data_io.py:read_single_knmi_file", "melodist/data_io.py:read_knmi_dataset"]}
{"id": "C65", "title": "DWD reader drops the last line even when asked not to (deviation)", "statement": "read_dwd(skip_last=False) gives the same result as skip_last=True and does not depend on the last line of any file; only skip_last=None reads the last line.", "quantifier": "every file or list of files, every content", "why_tests_cant": "All inputs.", "anchors": ["melodist/data_io.py:read_dwd"]}
{"id": "C66", "title": "Station.interpolate keeps the observations and stays between neighbouring ones", "statement": "prepare_interpolation_data places each column's value at its hour of each day on the hourly grid of all days and leaves all other hours missing; linear interpolation then keeps observed values and every interpolated value lies between the neighbouring observations, in proportion to the distance in time, if the earlier one is at most `limit` hours away and limit_direction is not 'backward', or the later one and it is not 'forward' (missing otherwise); before the first and after the last observation the nearest one is continued under the same conditions; a limit below 1 raises ValueError (pandas versions providing Series.append; AttributeError otherwise).", "quantifier": "every daily frame, every column/hour map with distinct hours", "why_tests_cant": "All frames.", "anchors": ["melodist/util/util.py:prepare_interpolation_data", "melodist/station.py:Station.interpolate"]}
{"id": "C67", "title": "disagg_prec(method='equal') does not accept the documented argument (deviation)", "statement": "disagg_prec documents its daily data as a pd.Series, but method='equal' reads its attribute 'precip' and raises AttributeError for every Series; it works for a frame with a column 'precip', while 'cascade' and 'masterstation' work on the Series.", "quantifier": "every Series, every other argument", "why_tests_cant": "No test calls the method with the documented type; holds for all series.", "anchors": ["melodist/precipitation.py:disagg_prec"]}
{"id": "C68", "title": "Every hour of the cascade result is made of the quarter-hours of its 45-minute boxes", "statement": "The cascade ends with 32 boxes of 45 minutes per day; each hour of a non-missing day equals exactly the sum over its four quarter-hours of one third of the amount of the 45-minute box that contains the quarter-hour (no rain is moved across a box, an hour or a day boundary).", "quantifier": "every daily series, all statistics, all draws (exact arithmetic)", "why_tests_cant": "Ranges over all boxes of all realisations; mass conservation alone would not notice rain moved to a neighbouring hour.", "anchors": ["melodist/precipitation.py:disagg_prec_cascade"]}
{"id": "C69", "title": "Statistics of a record without rain, or with a single pair, cannot be computed", "statement": "aggregate_precipitation raises IndexError for every record whose values are all zero or missing (percentile of an empty selection), and for every record of just two values with rain (the box type of the only box needs a right neighbour).", "quantifier": "every dry record of any length, every two-value record, every percentile 0..100", "why_tests_cant": "Ranges over all dry records.", "anchors": ["melodist/precipitation.py:aggregate_precipitation"]}
{"id": "C70", "title": "detect_gaps announces a shortened list although it has listed every gap (deviation)", "statement": "With verbose output, detect_gaps lists every gap when print_all is set and otherwise the first print_max ones; the note that only the first print_max gaps are listed appears exactly when there are at least print_max gaps, hence also when all of them have been listed (exactly print_max gaps, or print_all=True).", "quantifier": "every index, step, print_max >= 1 (pandas versions with Timedelta.delta)", "why_tests_cant": "Ranges over all indexes; tests do not read the printed output.", "anchors": ["melodist/util/util.py:detect_gaps"]}
{"id": "C71", "title": "The sine methods cannot be called with the default sun_times and always need the column 'temp' (deviation)", "statement": "disaggregate_temperature with a sine method and sun_times left at its default None raises for every daily frame (AttributeError in the otherwise valid all-defaults call); it returns a result only if the daily frame has a column 'temp', although sine_min_max does not use it; an unknown method raises ValueError.", "quantifier": "every daily frame and option", "why_tests_cant": "A universally quantified failure; the test suite always passes sun_times and all columns.", "anchors": ["melodist/temperature.py:disaggregate_temperature"]}
{"id": "C72", "title": "The night-time modified curve jumps at the time of minimum (deviation)", "statement": "With mod_nighttime=True every hour strictly between the times of minimum and maximum is already more than (1-sqrt(1/2))/2, about 14.6 %, of the diurnal range above the minimum, however many hours lie between the two: the curve does not rise continuously from the minimum.", "quantifier": "every daily series, all min_loc<max_loc", "why_tests_cant": "Continuum.", "anchors": ["melodist/temperature.py:disaggregate_temperature"]}
{"id": "C73", "title": "The maximum-temperature shift is the monthly mean distance of the daily maximum from solar noon", "statement": "get_shift_by_data on hourly data of consecutive days returns, for each month that occurs and no other, the mean over its days of (hour of the first maximum of the day - solar noon), leaving out days without valid values, and NaN if no day of the month has any.", "quantifier": "every hourly record of consecutive days incl. missing values, every site", "why_tests_cant": "Ranges over all records.", "anchors": ["melodist/temperature.py:get_shift_by_data", "melodist/util/util.py:get_sun_times"]}
{"id": "C74", "title": "Sloping terrain receives direct radiation at night (deviation)", "statement": "potential_radiation with a terrain slope between 0 and 180 degrees returns a positive direct part while the sun is below the horizon, whenever the slope faces the computed azimuth: 1367*ratio*0.6*(1-cloud)*sin(slope)*cos(azimuth difference). At local midnight at 45 degrees north a 30-degree slope facing azimuth 0 gets more than 395 W/m2 on every day of the year.", "quantifier": "every day of year, time, site with the sun at or below the horizon, every slope", "why_tests_cant": "Continuum of sites and times; tests use flat terrain.", "anchors": ["melodist/radiation.py:potential_radiation"]}
{"id": "C75", "title": "Bristow-Campbell gives NaN for a day colder than the next morning's average minimum (deviation)", "statement": "disaggregate_radiation('pot_rad_via_bc'): on a day whose maximum is below the mean of its own and the next day's minimum, every hourly value is NaN whenever the exponent is not an integer (the default is 2.4), instead of 0 or a clipped value.", "quantifier": "every daily series, every site, every non-integer exponent", "why_tests_cant": "Ranges over all temperature series; a test needs a sudden warm-up.", "anchors": ["melodist/radiation.py:bristow_campbell", "melodist/radiation.py:disaggregate_radiation"]}
{"id": "C76", "title": "Humidity by month, hour and wet day: table of class means, KeyError for unseen classes", "statement": "calculate_month_hour_precip_mean has an entry for (month, hour, wet) exactly if such an hour was observed, and it is the mean of the known humidities of the class (NaN if none is known), a day being wet if its known amounts sum to more than zero; disaggregate_humidity('month_hour_precip_mean') gives every hour the entry of its class, a day with missing precipitation counting as dry, and raises KeyError if any needed class is absent.", "quantifier": "every hourly record incl. missing values, every daily frame of consecutive days", "why_tests_cant": "Ranges over all records.", "anchors": ["melodist/humidity.py:calculate_month_hour_precip_mean", "melodist/humidity.py:disaggregate_humidity"]}
{"id": "C77", "title": "Dew-point humidity combines temperature and daily data by position, ignoring dates (deviation)", "statement": "disaggregate_humidity with 'minimal' or 'dewpoint_regression' pairs the hour h of day i with row 24*i+h of the temperature series whatever its time stamps, and labels the result with those stamps; only a different length is refused (ValueError).", "quantifier": "every temperature series with any index, every daily frame", "why_tests_cant": "Universally quantified over misaligned inputs, which tests never use.", "anchors": ["melodist/humidity.py:disaggregate_humidity", "melodist/util/util.py:vapor_pressure"]}
{"id": "C78", "title": "The cosine wind fit has an exact solution on data that follow the cosine law", "statement": "If every day of an hourly record follows the cosine law with amplitude a, offset b<>0 and phase t_shift applied to some daily number, all 24*n rows handed to the fit are reproduced without residual by (a/b, 1, t_shift), since the daily mean is b times that number.", "quantifier": "every number of days, all parameters", "why_tests_cant": "Continuum of parameters.", "anchors": ["melodist/wind.py:fit_cosine_function"]}
{"id": "C79", "title": "Linear dew-point variation follows the published equation and leaves the daily mean dew point alone", "statement": "disaggregate_humidity('linear_dewpoint_variation') with kr 6 or 12 uses, for hour h of day i, the dew point td_i + h/24*(td_(i+1)-td_i) + 0.5*sin((h+1)*pi/kr-3*pi/4), td_i = a0+a1*tmin_i, the last day continuing with itself; the sine terms of a day add up to zero; any other kr or a missing coefficient is refused.", "quantifier": "every daily frame, all coefficients", "why_tests_cant": "Continuum.", "anchors": ["melodist/humidity.py:disaggregate_humidity"]}
{"id": "C80", "title": "A season with a gap in the record makes the cascade fail (deviation)", "statement": "On current pandas Station.disaggregate_precipitation('cascade') raises, leaving data_disagg unchanged, as soon as one season with statistics has two days in the record with a day outside the season between them - for instance a winter season and a record that reaches from one winter into the next.", "quantifier": "every record, every list of seasons and statistics, every random stream", "why_tests_cant": "Ranges over all records and season lists; tests use one season or one year.", "anchors": ["melodist/station.py:Station.disaggregate_precipitation", "melodist/util/util.py:hourly_index"]}
{"id": "C81", "title": "Seasonal cascade disaggregation conserves every day's amount in the station's hourly frame", "statement": "After a successful Station.disaggregate_precipitation('cascade') on gap-free daily data, the 24 hourly values of every day that belongs to a season with statistics and at least one other day in the record are non-negative and sum to the day's amount, a missing day is missing, every other day stays missing, and no other column changes.", "quantifier": "every record with non-negative or missing amounts, every list of seasons, statistics and random stream", "why_tests_cant": "Randomised; infinitely many records.", "anchors": ["melodist/station.py:Station.disaggregate_precipitation", "melodist/precipitation.py:disagg_prec", "melodist/precipitation.py:seasonal_subset"]}
{"id": "C82", "title": "Humidity before temperature is silently all missing (deviation)", "statement": "Station.disaggregate_humidity with minimal, dewpoint_regression, linear_dewpoint_variation or min_max, called while data_disagg.temp holds no values (as directly after assigning data_daily), does not raise because of it: whenever it succeeds it fills data_disagg.hum with missing values only.", "quantifier": "every station state, every parameter set", "why_tests_cant": "Quantifies over states and call orders.", "anchors": ["melodist/station.py:Station.disaggregate_humidity", "melodist/humidity.py:disaggregate_humidity"]}
{"id": "C83", "title": "Precipitation options: shift only acts on the cascade, unknown methods fail late (deviation)", "statement": "Station.disaggregate_precipitation gives the same result for every shift (and random stream) unless the method is 'cascade', where, with one season covering the record, a shift of k moves the whole hourly column by k hours (filling with missing); an unknown method raises UnboundLocalError and 'masterstation' always raises on current pandas, both leaving the station unchanged.", "quantifier": "every station state and argument", "why_tests_cant": "Quantifies over all arguments.", "anchors": ["melodist/station.py:Station.disaggregate_precipitation"]}
{"id": "C84", "title": "What a failing statistics calculation leaves behind (deviation)", "statement": "When a calc_*_stats call raises, the statistics object is unchanged for data, wind and temperature; calc_precipitation_stats has already replaced the season months but keeps the old statistics, so months and statistics may no longer belong together, and, unless it failed before selecting the first season or for lack of the column, has turned the missing amounts of the record into zeros; calc_humidity_stats may have replaced the regression coefficients but keeps the old table.", "quantifier": "every statistics object, every argument, every behaviour of the fitting routines", "why_tests_cant": "Exception-safety over all states.", "anchors": ["melodist/stationstatistics.py:StationStatistics.calc_precipitation_stats", "melodist/stationstatistics.py:StationStatistics.calc_humidity_stats"]}
{"id": "C85", "title": "Disaggregated wind and precipitation land on the right hours of the station's frame", "statement": "After assigning gap-free daily data, Station.disaggregate_precipitation('equal') leaves 24 times a twenty-fourth of the day's amount on that day, disaggregate_wind('equal') leaves the daily mean, and disaggregate_wind('cosine'), whose result is stored by position, leaves a*v*cos(pi*(h-shift)/12)+b*v at hour h with daily mean b*v.", "quantifier": "every record, all parameters", "why_tests_cant": "All records.", "anchors": ["melodist/station.py:Station.disaggregate_precipitation", "melodist/station.py:Station.disaggregate_wind"]}
{"id": "C86", "title": "write_smet(check_nan=True) does not drop columns without data (deviation)", "statement": "The file lacks exactly the columns that hold both +infinity and -infinity, and only with check_nan=True; columns consisting of missing values only, which the documentation says are dropped, are written and come back as all missing.", "quantifier": "every frame and header as in C60, both modes", "why_tests_cant": "All frames.", "anchors": ["melodist/data_io.py:write_smet", "melodist/data_io.py:read_smet"]}
{"id": "C87", "title": "DWD reader: columns, units and header", "statement": "read_dwd keeps exactly the columns whose stripped names are known, in file order, under their melodist names; tmin, tmax and tmean are converted to Kelvin and all other values are those of the file. Hourly temperatures come back as 'tmean', never as 'temp' (deviation). The header comes from the last row of the metadata that is not empty, KeyError if there is none; a mode other than 'd' and 'h' raises UnboundLocalError.", "quantifier": "every table and every metadata file", "why_tests_cant": "All column names, tables and metadata.", "anchors": ["melodist/data_io.py:read_dwd"]}
{"id": "C88", "title": "DWD reader: several files are joined without loss", "statement": "For files with disjoint kept columns and no repeated times, read_dwd of the list has exactly the times of all files, each once, increasing if all files are; every value of every file is found again under its name at its time, and all other cells are missing. Files sharing a kept column raise ValueError; an empty list raises UnboundLocalError.", "quantifier": "every list of files", "why_tests_cant": "All combinations of overlapping and disjoint periods.", "anchors": ["melodist/data_io.py:read_dwd"]}
{"id": "C89", "title": "A successful statistics calculation stores exactly what it computed and touches nothing else", "statement": "After calc_wind_stats the object holds the three numbers the fit returned for the rows (mean of the valid values of the day, hour, value), in the order a, b, t_shift; after calc_humidity_stats a1 is the slope and a0 the intercept of the regression of the daily mean dew point on the daily minimum temperature, kr is 12 and the table is that of the record; after calc_temperature_stats the shifts and the normalised mean course of the record; after calc_precipitation_stats one set of statistics per season, with the given months (all twelve by default), computed from the season's part of the record. All other parts of the object are unchanged, except that calc_precipitation_stats fills missing values of the seasons' hours in data.precip. Assigning data accepts exactly the data frames with time stamps on full hours that are not all at midnight; anything else raises an AssertionError and changes nothing.", "quantifier": "every statistics object and argument, every behaviour of the fitting routines", "why_tests_cant": "Frame conditions over all states.", "anchors": ["melodist/stationstatistics.py:StationStatistics.calc_wind_stats", "melodist/stationstatistics.py:StationStatistics.calc_humidity_stats", "melodist/stationstatistics.py:StationStatistics.calc_temperature_stats", "melodist/stationstatistics.py:StationStatistics.calc_precipitation_stats"]}
{"id": "C90", "title": "Wind: a calibrated station reproduces the observations as well as the fit does", "statement": "If calc_wind_stats fits the observed hours with residuals of at most eps, Station.disaggregate_wind('cosine') with the daily means of the same record reproduces every observed hour within eps; observations may be missing.", "quantifier": "every record of consecutive days, every residual bound, every fit result", "why_tests_cant": "Continuum of records and parameters.", "anchors": ["melodist/stationstatistics.py:StationStatistics.calc_wind_stats", "melodist/station.py:Station.disaggregate_wind", "melodist/wind.py:disaggregate_wind", "melodist/wind.py:fit_cosine_function"]}
{"id": "C91", "title": "Temperature: a calibrated station attains the given extremes on every day", "statement": "If the observations cover every hour of every month of the station's record and the mean course of each of these months is not constant, calc_temperature_stats followed by Station.disaggregate_temperature('mean_course_min_max') succeeds, and every day with known tmin <= tmax has tmin as its least and tmax as its greatest hourly value.", "quantifier": "every record of observations, every daily record", "why_tests_cant": "All records.", "anchors": ["melodist/stationstatistics.py:StationStatistics.calc_temperature_stats", "melodist/station.py:Station.disaggregate_temperature", "melodist/temperature.py:disaggregate_temperature"]}
{"id": "C92", "title": "Humidity: a calibrated station reproduces linear dew point data exactly and class means in every hour", "statement": "If the dew point is constant over each observed day and a linear function of the day's minimum temperature (two different minima), calc_humidity_stats finds that function and Station.disaggregate_humidity('dewpoint_regression') returns the observed humidity at every hour where dew point and temperature are not on different sides of freezing; in general it and 'linear_dewpoint_variation' use the fitted coefficients, and 'month_hour_precip_mean' gives every hour the mean of the observations of its class, failing with KeyError if there is none.", "quantifier": "every record, every least-squares routine", "why_tests_cant": "Continuum of records.", "anchors": ["melodist/stationstatistics.py:StationStatistics.calc_humidity_stats", "melodist/station.py:Station.disaggregate_humidity", "melodist/humidity.py:disaggregate_humidity", "melodist/humidity.py:calculate_dewpoint_regression", "melodist/util/util.py:linregress"]}
{"id": "C93", "title": "Precipitation: when the cascade can be calibrated, and that a calibrated cascade works", "statement": "calc_precipitation_stats on non-negative hourly observations (some possibly missing) succeeds if and only if every season has at least 64 hours and, counting its hours in blocks of 32, one block that is complete and not dry (a missing hour counts as missing in the first season and as dry in the later ones); otherwise it raises IndexError. After a successful call Station.disaggregate_precipitation('cascade') succeeds at every station if and only if no season is interrupted inside the station's record, for all daily amounts, shifts and all random draws up to 1 - 10^-15; without seasons and shift, on a record of two days or more, every daily amount comes back as 24 non-negative hourly amounts with that sum, and a missing amount as 24 missing values.", "quantifier": "every record, every division into seasons, averaged or per-level statistics, every daily record, every random stream", "why_tests_cant": "Success on all records and all random streams is not testable.", "anchors": ["melodist/stationstatistics.py:StationStatistics.calc_precipitation_stats", "melodist/precipitation.py:build_casc", "melodist/precipitation.py:aggregate_precipitation", "melodist/precipitation.py:seasonal_subset", "melodist/station.py:Station.disaggregate_precipitation", "melodist/precipitation.py:disagg_prec_cascade"]}
{"id": "C94", "title": "Precipitation in double precision: daily sums are kept up to rounding", "statement": "In IEEE double arithmetic, for records of at most a million days with amounts between 0 and 2^900, the 24 hourly amounts the cascade returns for a day add up to its amount with an error of at most 2*10^-14 times the precipitation of the record up to and including that day (plus 10^-300). No bound in terms of the day's own amount alone is true: after an enormous amount a day of 1 mm can come back completely dry (deviation). With method 'equal' the error is at most 10^-15 times the day's own amount (plus 10^-300).", "quantifier": "every record, all statistics and random draws, in doubles", "why_tests_cant": "Rounding behaviour over all doubles and all records.", "anchors": ["melodist/precipitation.py:disagg_prec_cascade", "melodist/precipitation.py:disagg_prec", "melodist/util/util.py:distribute_equally"]}
{"id": "C95", "title": "A station disaggregates radiation with its own sky, and reproduces what it was calibrated on", "statement": "At a station with a location, disaggregate_radiation works for 'pot_rad', 'pot_rad_via_ssd' and 'pot_rad_via_bc' without further arguments, writes only the glob column, and every day that is not dark and has no hour with the sun exactly in the zenith gets hours in proportion to the cloud-free radiation of the station's own longitude, latitude and time zone. Their mean is the day's glob, the Angstroem estimate from sunshine duration and the station's own day length, or the Bristow-Campbell estimate, each with the parameters of the day's own month, less at most 0.01 from cutting off small values. After calc_radiation_stats, 'mean_course' gives every day the shape of the observed mean hours of its month, and if the Angstroem fit leaves residuals of at most eps, 'pot_rad_via_ssd' reproduces the observed daily means within eps + 0.01.", "quantifier": "every station, record, calibration and fit result", "why_tests_cant": "Requires reasoning over all places, days and fitted parameters.", "anchors": ["melodist/station.py:Station.disaggregate_radiation", "melodist/stationstatistics.py:StationStatistics.calc_radiation_stats", "melodist/radiation.py:disaggregate_radiation", "melodist/radiation.py:potential_radiation"]}
{"id": "C96", "title": "Bristow-Campbell calibration: what is minimised, and what that gives", "statement": "For consecutive complete days the function minimised by fit_bristow_campbell_params is the absolute mean over the days of (estimate - observation), with the estimates disaggregate_radiation would use. So with calc_radiation_stats(how='all') on a complete record, if the fit reaches a mean bias of at most eps (with A >= 0, C > 0, and no day whose maximum lies below its mean minimum), 'pot_rad_via_bc' at the station reproduces the mean radiation of the period within eps + 0.01. A day whose following day is not in the table (before a gap, or the last day of a season when how='seasonal') has no estimate there, and its observation has no influence on the calibration (deviation).", "quantifier": "every record, station and fit result", "why_tests_cant": "Requires reasoning over all records and fitted parameters.", "anchors": ["melodist/radiation.py:fit_bristow_campbell_params", "melodist/radiation.py:bristow_campbell", "melodist/stationstatistics.py:StationStatistics.calc_radiation_stats", "melodist/station.py:Station.disaggregate_radiation"]}
{"id": "C97", "title": "Sub-daily time indices with and without gaps", "statement": "For a daily index of increasing days without gaps, fmin_index gives exactly the 288 stamps five minutes apart of every listed day and sub_level_index(level=L), L <= 11, exactly its 2^L equally spaced stamps, in order, whatever fill_gaps is. With gaps and fill_gaps=True, these and hourly_index give the stamps of all days from the first to the last listed one, none outside. With gaps and fill_gaps=False only the stamps of the listed days are kept where pandas still offers pd.datetime, and they are cut to whole seconds, so that from level 8 on they are no longer equally spaced (deviation); with a current pandas the call fails with AttributeError (deviation).", "quantifier": "every strictly increasing list of days, every level up to 11, both values of fill_gaps, both pandas generations", "why_tests_cant": "Tests cannot enumerate all sets of days.", "anchors": ["melodist/precipitation.py:sub_level_index", "melodist/precipitation.py:fmin_index", "melodist/util/util.py:hourly_index"]}
{"id": "C98", "title": "The order of disaggregation calls on a station", "statement": "Once a station has its sun times, two disaggregate_* calls for different variables can be exchanged (same station afterwards, same exceptions), except temperature and humidity; repeating a call changes nothing; and after any sequence of calls every hourly column except humidity holds exactly what the last successful call for it would have given on the untouched station. For humidity only the temperature calls before it matter, and it is not updated when temperature is computed again (deviation). Without sun times (data assigned before the time zone) the order matters: the sine methods fail before and work after any call of disaggregate_radiation, even a failing one (deviation).", "quantifier": "every station, statistics object, sequence of calls and options; random draws given per call", "why_tests_cant": "Tests run a few sequences; the claim is about all interleavings.", "anchors": ["melodist/station.py:Station.disaggregate_wind", "melodist/station.py:Station.disaggregate_humidity", "melodist/station.py:Station.disaggregate_temperature", "melodist/station.py:Station.disaggregate_precipitation", "melodist/station.py:Station.disaggregate_radiation", "melodist/station.py:Station.calc_sun_times"]}
{"id": "C99", "title": "The statistics shipped with the library", "statement": "fill_with_sample_data sets the branching probabilities and weights to the numbers printed in its source and leaves thresholds and percentile alone. In every cell these probabilities and weights are positive and add up to 1 within 10^-15, but not exactly (deviation). With them and the thresholds of a new CascadeStatistics the hourly cascade succeeds on every record of at least two days of non-negative or missing amounts, for all random draws up to 1 - 10^-15, and every daily amount comes back as 24 non-negative hourly amounts with that sum (exact arithmetic). A new CascadeStatistics has five thresholds but only zeros in its tables, and without sample data it fails with UnboundLocalError on every record with a wet day, for all positive draws (deviation).", "quantifier": "every record, every random stream within the stated ranges", "why_tests_cant": "Success and failure on all records and all random streams are not testable.", "anchors": ["melodist/cascade.py:CascadeStatistics.fill_with_sample_data", "melodist/cascade.py:CascadeStatistics.__init__", "melodist/precipitation.py:disagg_prec_cascade"]}
{"id": "C100", "title": "Master-station method in binary64 arithmetic", "statement": "In double arithmetic, with the master sum of a day added up in any order, a day with 24 master values and a daily amount between 0 and 2^900 and a positive master sum comes back as 24 finite non-negative hourly amounts whose exact sum differs from the daily amount by at most 3e-14 times the amount plus 1e-300. On a dry master day the hours are amount times 1/24 (zerodiv='uniform', same bound) or 0. The amount is not kept exactly (deviation; witness 1 mm with an even master).", "quantifier": "every record, every master record, every order of addition", "why_tests_cant": "Rounding over all doubles and all addition orders cannot be enumerated.", "anchors": ["melodist/precipitation.py:precip_master_station", "melodist/precipitation.py:disagg_prec"]}
{"id": "C101", "title": "Five-minute cascade in binary64 arithmetic", "statement": "With hourly=False (levels 9 to 11) and daily amounts between 0 and 2^900 or missing, whatever way pandas adds the boxes of a 5-minute interval, as long as its sums of up to eight such numbers are right within 1e-14: every day has 288 values, all finite and non-negative, whose exact sum differs from the daily amount by at most 2e-14 of that amount plus 1e-300, independent of the other days; a dry day has only zeros and a missing day only NaN. Plain and compensated (Kahan) addition are both within that bound.", "quantifier": "every record, every statistics object, every random stream, every summation within the bound", "why_tests_cant": "Rounding over all doubles and all summation algorithms cannot be enumerated.", "anchors": ["melodist/precipitation.py:disagg_prec_cascade"]}
{"id": "C102", "title": "Mean courses and mean_course_min_max in binary64 arithmetic", "statement": "In double arithmetic, for numbers up to 2^900 in size and however the means are computed: the table has a column for each month that occurs, holding for every hour that occurs the mean of exactly the values of that month and hour; a normalised monthly course with at least two different means lies in [0,1], is exactly 0 at the smallest and exactly 1 at the largest mean and keeps the order. With course values in [0,1] and tmin <= tmax every temperature of mean_course_min_max is finite, is never below tmin, equals tmin exactly where the course is 0, never decreases when the course value increases, and differs from the exact formula by at most 1e-15 of max(|tmin|,|tmax|) plus 1e-300. It can exceed tmax (deviation; witness -7.9 and 3.9 degrees).", "quantifier": "every record, every course, every way to compute the means", "why_tests_cant": "Rounding over all doubles cannot be enumerated.", "anchors": ["melodist/temperature.py:disaggregate_temperature", "melodist/util/util.py:calculate_mean_daily_course_by_month"]}
{"id": "C103", "title": "Master station: days with an incomplete master record depend on how pandas assigns them", "statement": "The last step of the master-station method writes a Series of the master's shares into the hours of a day. Where the master has exactly the 24 full hours of every day, writing by label (older pandas) and by position (pandas 1.4 and 1.5) give the same result. By position, a day is accepted exactly if the master's total is zero or the master has 24 values or one value that day: 24 values go to the 24 hours in order whatever their time stamps, a single value gives every hour the whole daily amount, so the day carries 24 times its amount (deviation), and any other number raises ValueError for the whole call. By label the hours the master lacks are missing instead.", "quantifier": "every daily series, every sorted master record of numbers, both zero options", "why_tests_cant": "The behaviours differ only on incomplete records and between library versions; a test suite runs one version.", "anchors": ["melodist/precipitation.py:precip_master_station"]}
{"id": "C104", "title": "Test mode of the cascade returns the intermediate levels of the very same run", "statement": "A call of the cascade with test=True raises, or returns None, exactly when the same call with test=False does, and the series at the end of its tuple is the series the other call returns; except that for a 5-minute call with a level other than 9, 10 or 11 it raises UnboundLocalError after all the work (deviation). The arrays in the tuple are the levels of the cascade drawn with these random numbers: level k has 2^k boxes per day, all non-negative, the two halves of every box add up to the box, and every level keeps every daily amount (missing days count as zero). In the hourly tuple the quarter-hour array is a third of each 45-minute box and every hour is the sum of its four quarters; in the 5-minute tuple the box series carries the start of every box.", "quantifier": "every daily series of consecutive days, non-negative or missing amounts (exact arithmetic), every statistics argument, level, random sequence", "why_tests_cant": "Tests compare single arrays of one seed; the relation between all levels and the two modes is over all runs.", "anchors": ["melodist/precipitation.py:disagg_prec_cascade"]}
{"id": "C105", "title": "The cascade without hourly output at levels other than 9, 10 and 11", "statement": "For levels 1 to 8 the 5-minute output puts the whole amount of a box into the single 5-minute row in which the box starts and zero into all other rows; daily amounts are kept and missing days are missing. The output ends with the row of the last box, so 1, 2, 4, 8, 17, 35, 71 or 143 rows (levels 8 down to 1) of the last day are absent (deviation). Statistics that cover the levels always give a result. Level 0 raises UnboundLocalError and no level above 11 ever returns a series.", "quantifier": "every daily series of consecutive days, non-negative or missing amounts (exact arithmetic), every statistics argument and random sequence", "why_tests_cant": "Only levels 9 to 11 are ever exercised; the absent rows concern only the very end of the output.", "anchors": ["melodist/precipitation.py:disagg_prec_cascade", "melodist/precipitation.py:sub_level_index"]}
{"id": "C106", "title": "Sine temperatures in binary64 arithmetic", "statement": "In double arithmetic, with any cosine that stays in [-1,1] and is accurate to 1e-15 for arguments up to 1000, numpy's pi, temperatures up to 2^900 in size and hours of minimum and maximum between -30 and 30: every hour of sine_min_max, with or without the night-time option, is finite and differs from the exact course between the two applicable daily extremes by at most 1e-13 of their size plus 1e-300; so it lies between them up to that error, the hour of the maximum carries the day's maximum and with the night-time option the hour of the minimum carries the day's minimum up to that error. With sine_mean every hour is that close to mean + half range * cosine and the 24 hours add up to 24 times the daily mean up to 24 times that error.", "quantifier": "every daily frame of consecutive days, every cosine of that accuracy, every hour", "why_tests_cant": "Rounding over all doubles and all libraries' cosines cannot be enumerated.", "anchors": ["melodist/temperature.py:disaggregate_temperature"]}
{"id": "C107", "title": "Cosine wind in binary64 arithmetic", "statement": "In double arithmetic, with the same kind of cosine, wind speeds and parameters a, b up to 2^400 and a time shift up to 100 hours in size: every hour is finite and within 1e-13 of (|a|+|b|)*|w| plus 1e-300 of a*w*cos(pi*(h-shift)/12)+b*w, and the 24 hours add up to 24*b*w up to 24 times that. If w >= 0 and |a| <= b no hourly value is negative and none exceeds the double 2*(b*w): these two bounds hold exactly, without an error term.", "quantifier": "every daily series, every parameter triple, every cosine of that accuracy, every hour", "why_tests_cant": "Rounding over all doubles cannot be enumerated; a small negative wind speed would come from a single unlucky rounding.", "anchors": ["melodist/wind.py:_cosine_function", "melodist/wind.py:disaggregate_wind"]}
{"id": "C108", "title": "Computing the daily data back from the hourly data of a station", "statement": "After any session of disaggregation calls on one station, in any order and including failing calls, whose sun times are known, daily_from_hourly applied to the station's hourly frame gives back, in exact arithmetic, what the last successful call for each variable was given: precipitation distributed equally or by the cascade comes back exactly (a day without observation comes back as 0, a deviation; so does, for the cascade, a day outside every season with statistics), wind distributed equally comes back exactly and cosine wind as b times the observation, minimum and maximum temperature come back from the course between minimum and maximum, the mean from the course and the sine around the mean, minimum and maximum humidity from the temperature-dependent method after that course, radiation up to 0.01 W/m2 and never above the observation. A variable that was never filled comes back as missing, precipitation as 0.", "quantifier": "every station, session, day, parameter set and random stream", "why_tests_cant": "The statement composes every method with the aggregation over sessions of any length and order; tests compare single methods on a few records with a tolerance.", "anchors": ["melodist/station.py:Station", "melodist/util/util.py:daily_from_hourly", "melodist/precipitation.py:disagg_prec", "melodist/temperature.py:disaggregate_temperature", "melodist/humidity.py:disaggregate_humidity", "melodist/wind.py:disaggregate_wind", "melodist/radiation.py:disaggregate_radiation"]}
{"id": "C109", "title": "Radiation scaled to the daily mean in doubles", "statement": "In binary64 arithmetic, whatever order pandas adds in (or compensated summation), disaggregate_radiation with method 'pot_rad' or 'mean_course' gives, for every day whose 24 course values and daily mean lie between 0 and 2^400 and whose largest course value is at least 2^-300, 24 finite hourly values: each is either 0 with the exact value below 0.01 W/m2 (up to 1e-15) or at least 0.01 and off by at most 1e-13 of the exact value course / mean course * daily mean; a course value of 0 gives exactly 0, so does a daily mean of 0; a larger course value never gives a smaller hourly value; the mean of the hours is above the daily mean by at most 1e-13 of it and below by at most 0.01 plus that, and so is, up to twice that error, the mean computed back in doubles.", "quantifier": "every record, day, course, daily mean and order of summation", "why_tests_cant": "Quantifies over all doubles and over the unspecified order of summation; tests compare a few values with a tolerance.", "anchors": ["melodist/radiation.py:disaggregate_radiation"]}
{"id": "C110", "title": "Humidity between its daily minimum and maximum in doubles", "statement": "In binary64 arithmetic, disaggregate_humidity with method 'min_max' gives, for every day whose minimum temperature lies below its maximum (both of modest size), whose humidity bounds lie between 0 and 100 in the right order, and every hour whose temperature is at least the daily minimum and exceeds it by at most twice the daily range, a finite humidity between 0 and the daily maximum of humidity, off by at most 2e-13 percent from the exact line (cut off at 0); at the daily minimum of temperature it is exactly the daily maximum of humidity, and a warmer hour of the day never is more humid. (Deviation: at the daily maximum of temperature the value may lie below the daily minimum of humidity, so hourly values are not confined between the two daily bounds.)", "quantifier": "every record, day, hour, temperature and humidity bound", "why_tests_cant": "Quantifies over all doubles in the stated range; a test checks a few values with a tolerance and would not see the last-digit effects.", "anchors": ["melodist/humidity.py:disaggregate_humidity"]}
{"id": "C111", "title": "Method names: which are of use, and what a refused name leaves behind", "statement": "For each of the five variables, a method name makes Station.disaggregate_* return for some station if and only if it is one of the documented names (wind: 3, humidity: 6, temperature: 5, precipitation: 3, radiation: 4); with any other name the call raises for every station and leaves it as it was, except that disaggregate_radiation has then already computed and stored the sun times (deviation). Of the constants of the class Options each is of use for its variable but TEMP_LINEAR = 'linear', which disaggregate_temperature always refuses; EQUAL_DISTRIBUTION is of use for humidity, wind and precipitation and refused for temperature and radiation (deviation).", "quantifier": "every string, station, statistics object and environment", "why_tests_cant": "Refusal quantifies over all strings and all stations; a test tries one misspelt name on one station.", "anchors": ["melodist/__init__.py:Options", "melodist/station.py:Station.disaggregate_wind", "melodist/station.py:Station.disaggregate_humidity", "melodist/station.py:Station.disaggregate_temperature", "melodist/station.py:Station.disaggregate_precipitation", "melodist/station.py:Station.disaggregate_radiation"]}
{"id": "C112", "title": "Daily aggregates of hourly values in doubles", "statement": "For a record of doubles and a day with at most 24 recorded hours, missing or between 0 and 2^900 and not all missing, daily_from_hourly returns the exact smallest and largest valid value as tmin/tmax and hum_min/hum_max; the mean (temp, hum, wind, glob) is finite, not negative and off by at most 3*10^-14 of the exact mean plus 10^-300, so it leaves [minimum, maximum] by at most that fraction of the maximum; the sum (precip) is off by at most 2.8*10^-14 of the exact sum and the sunshine hours by at most 3*10^-14 plus 10^-300. This holds for every order of the additions and for compensated summation. The mean of a constant day can exceed its maximum in both cases (deviation from C29).", "quantifier": "every hourly record of doubles, every day meeting the bounds, every way of adding up", "why_tests_cant": "Rounding of all sums of up to 24 doubles in every order; a test compares a few values with a tolerance.", "anchors": ["melodist/util/util.py:daily_from_hourly"]}
{"id": "C113", "title": "Interpolation in doubles", "statement": "Station.interpolate with method 'linear' on columns of doubles (zero or between 2^-800 and 2^900 in absolute value, up to 2^50 hours): observations are returned bit for bit; between two neighbouring observations every value is finite, lies between them in the floating point order, rises or falls monotonically from the earlier to the later, equals them if they are equal, and is off by at most 10^-15 of the larger absolute value from the exact straight line; before the first and after the last observation the nearest one is repeated bit for bit; hours out of reach of limit and limit_direction are missing. For subnormal observations a value can pass the later neighbour (deviation).", "quantifier": "every column/hour map of doubles, limit and direction", "why_tests_cant": "Monotonicity and bounds under rounding hold for all pairs of doubles and all gap lengths; tests sample a few.", "anchors": ["melodist/util/util.py:prepare_interpolation_data", "melodist/station.py:Station.interpolate"]}
{"id": "C114", "title": "mean_course_mean in doubles", "statement": "disaggregate_temperature with method 'mean_course_mean' on doubles (daily minimum <= maximum, all daily values at most 2^900 in absolute value, a course with 24 values between 0 and 1): every hour is finite and within 4*10^-14 of the daily range plus 2*10^-16 of the daily mean (plus 10^-300) of mean + range * (course value - mean of the course); so is the exact mean of the 24 returned doubles of the daily mean; hours are ordered as in the course; on a day without range all 24 values equal the daily mean. The daily mean is not kept exactly in general (deviation).", "quantifier": "every daily series of doubles, every course in [0,1], every way of averaging the course that is accurate to 3*10^-14", "why_tests_cant": "Rounding errors of the course's mean enter every hour of the day; tests look at a few days.", "anchors": ["melodist/temperature.py:disaggregate_temperature"]}
{"id": "C115", "title": "read_smet on files of other origin (deviation)", "statement": "For every SMET file (any lines before [HEADER], any entries 'key=value', fields and units_multiplier given once, any blanks, timestamp in any column, decimal numbers) read_smet with pandas versions that allow 'del index.name' returns the time stamps, the columns under their short names, missing where the number is -999, and otherwise the number times a multiplier: the column at place p among those other than timestamp gets entry p+1 (counted from 0) of units_multiplier, which is its own only if timestamp comes before it (deviation). Entries such as nodata and units_offset have no effect on the data (deviation). A units_multiplier entry of another length raises ValueError.", "quantifier": "every file of this form", "why_tests_cant": "All texts, column orders and header entries.", "anchors": ["melodist/data_io.py:read_smet"]}
{"id": "C116", "title": "Daily and hourly frame of a station belong together after any program, except for stepped frequencies (deviation)", "statement": "After any sequence of calls on any number of stations and statistics objects (constructors, assignments, statistics, disaggregation, including calls that raise): a station without data_daily has no data_disagg; data_disagg always has the five columns, each as long as its index; data_daily has strictly increasing days, full-length columns and no temperature below 200 K; and if its days are consecutive (or on pandas versions whose Index has to_datetime) data_disagg has exactly the 24 hours of each of its days. With a stepped frequency on current pandas data_disagg may still be that of the previous data (deviation).", "quantifier": "every program", "why_tests_cant": "Quantifies over call histories.", "anchors": ["melodist/station.py:Station"]}
{"id": "C117", "title": "Potential radiation supplied by the user is used at its own times", "statement": "disaggregate_radiation('pot_rad') with a supplied potential radiation returns a series with the labels of that series, whatever the days of data_daily: at each label the value divided by the mean of the supplied values of that day times the daily value, NaN before the first day, and after the last day the last daily value is used again (deviation). At a station the result is stored by label: hours without a supplied value become NaN, values at other times are ignored (but count in the mean), and when the supplied values of a day lie on full hours, those hours have the daily value as their mean up to the 0.01 cut-off; repeated labels raise ValueError and leave the station as it was.", "quantifier": "every supplied series", "why_tests_cant": "All label sets.", "anchors": ["melodist/radiation.py:disaggregate_radiation", "melodist/station.py:Station.disaggregate_radiation"]}
{"id": "C118", "title": "A call that lacks something raises; otherwise it succeeds", "statement": "On a station whose daily data cover consecutive days, whether disaggregate_wind, disaggregate_humidity, disaggregate_temperature or disaggregate_radiation raises, and which exception, is decided by the first missing thing in a fixed order, and with nothing missing the call succeeds: the method name, the columns of data_daily (AttributeError; 'min_max' humidity tests hum_min and hum_max with AssertionError), the fitted parameters (AssertionError for wind and humidity, AttributeError or TypeError for temperature), mean courses, monthly shifts and humidity classes that cover the months, hours and wet or dry days that occur (KeyError), sun times (AttributeError) and location (TypeError). The same for 'equal' precipitation; 'cascade' without statistics raises TypeError, 'masterstation' without the column AttributeError. Before any daily data every call raises AttributeError, except for unknown names of temperature (ValueError) and precipitation methods (UnboundLocalError). The function disaggregate_humidity without hourly temperatures raises AttributeError for the dew point methods and TypeError for 'min_max'.", "quantifier": "every station, statistics object and method name", "why_tests_cant": "All combinations of missing things.", "anchors": ["melodist/station.py:Station", "melodist/wind.py:disaggregate_wind", "melodist/humidity.py:disaggregate_humidity", "melodist/temperature.py:disaggregate_temperature", "melodist/radiation.py:disaggregate_radiation"]}
{"id": "C119", "title": "A statistics call that lacks something raises; otherwise only the fits can fail", "statement": "Whether calc_wind_stats, calc_temperature_stats, calc_humidity_stats, calc_precipitation_stats and calc_radiation_stats raise, and which exception, is decided by the first missing thing in a fixed order. Without a record: AttributeError, but TypeError for humidity. Without the column: AttributeError for wind, temp and glob, KeyError for temp and hum in the humidity statistics and for precip in the precipitation statistics, AttributeError for precip in the humidity statistics, and this only after the regression has been stored. Without location: TypeError, for temperature always, for radiation only when daily data are given. A first season without months: UnboundLocalError; no season at all: no exception even without a record. An unknown 'how': AssertionError, before anything else. With nothing missing temperature statistics always succeed, and the others raise only what a fit raises (precipitation: IndexError, exactly when a season has too little rain).", "quantifier": "every statistics object, every record, every outcome of the fits", "why_tests_cant": "All combinations of missing things.", "anchors": ["melodist/stationstatistics.py:StationStatistics.calc_precipitation_stats", "melodist/stationstatistics.py:StationStatistics.calc_wind_stats", "melodist/stationstatistics.py:StationStatistics.calc_humidity_stats", "melodist/stationstatistics.py:StationStatistics.calc_temperature_stats", "melodist/stationstatistics.py:StationStatistics.calc_radiation_stats", "melodist/precipitation.py:build_casc", "melodist/humidity.py:calculate_dewpoint_regression"]}
{"id": "C120", "title": "Cascade statistics estimated in doubles, and the cascade that uses them", "statement": "If every observation is missing, zero or between 2^-300 and 2^300, the record has fewer than 2^53 rows and no season lists a month twice, then in the statistics build_casc computes in doubles (any percentile, 1 to 11 levels, averaged or not, any seasons) the three branching probabilities of each cell and the seven weights of each cell are finite, non-negative and sum exactly to 1 up to 2*10^-15 for the statistics of a level and 10^-14 for averaged ones. Disaggregating any non-negative daily amounts with them, to hours or to five minutes, does not raise as long as no random number lies within 2*10^-14 of 1. Without the last condition it may raise UnboundLocalError (deviation).", "quantifier": "every record, every percentile, every sequence of random numbers", "why_tests_cant": "Whether the last cumulated weight reaches the random number depends on rounding; the failing random numbers have probability about 10^-14.", "anchors": ["melodist/precipitation.py:build_casc", "melodist/precipitation.py:aggregate_precipitation", "melodist/precipitation.py:disagg_prec_cascade", "melodist/cascade.py:CascadeStatistics"]}
{"id": "C121", "title": "Cascade statistics of a record of doubles are correctly rounded relative frequencies", "statement": "If every observation is missing, zero or between 2^-300 and 2^300 and the record has fewer than 2^53 rows, then each aggregation step takes as threshold the percentile of the non-zero sums of disjoint pairs (in doubles). If every one of the eight cells (volume class, position) contains a wet sum, each branching probability is the correctly rounded quotient of the number of pairs of the cell with that branching and the number of wet sums in the cell, and each weight is the correctly rounded quotient of the number of pairs whose share (computed in doubles) lies in the class and the number of pairs wet in both halves, or 1/7 rounded where there is none; if a cell contains no wet sum, all four tables are the shipped ones, rounded. build_casc applies this to the season's data and then to the sums of the previous step; with averaging, each entry is within 10^-14 of the mean of the steps' entries weighted with the numbers of sums, and the thresholds of all steps are kept in order.", "quantifier": "every record, every percentile, every number of steps (averaged: 1 to 11) and every grouping of months", "why_tests_cant": "A count that is off by one, or a sum that rounds differently at one step of one long record, changes statistics that no test compares with an independent count.", "anchors": ["melodist/precipitation.py:build_casc", "melodist/precipitation.py:aggregate_precipitation", "melodist/cascade.py:CascadeStatistics"]}
{"id": "C122", "title": "Humidity in doubles: the observed daily mean is restored and the dew point methods are accurate", "statement": "With preserve_daily_mean, whatever the method, an hourly temperature or coefficients: on a day whose observed humidity lies in 0..100 % and whose disaggregated values lie strictly between 0 and 100, the returned 24 values lie in 0..100, keep the order of the uncorrected values, and each is within 4*10^-12 of the uncorrected value minus (its daily mean minus the observation) cut to 0..100; if none of them reaches 0 or 100, their mean is the observation up to 4*10^-12. A day without observation is returned unchanged. Methods 'minimal' and 'dewpoint_regression' (any vapour pressure function with values between 2^-400 and 2^400): each value lies in 0..100, is within 3*10^-14 of 100 times the ratio of the vapour pressures at the dew point and at the hour cut at 100, and does not increase with the vapour pressure of the hour; with 'minimal' an hour at the daily minimum is at least 100 - 3*10^-14 but not always 100 (deviation).", "quantifier": "every record of days, every method, every way of averaging 24 values with relative error up to 3*10^-14", "why_tests_cant": "Rounding of a daily mean or of a quotient shows in the twelfth digit of rare days; a test compares a few days with a tolerance.", "anchors": ["melodist/humidity.py:disaggregate_humidity", "melodist/util/util.py:distribute_equally"]}
{"id": "C123", "title": "What estimating cascade statistics leaves in the record, and estimations over no level (deviation)", "statement": "Whether build_casc succeeds or raises, afterwards the missing values of the caller's precipitation column are zeros, unless no season is requested or the first season selects no month: then the column is unchanged. With hourly=False and level=0 the call raises ZeroDivisionError (UnboundLocalError if the first season selects no month, an empty list if there is no season), and ZeroDivisionError is raised in no other case.", "quantifier": "every record, season list, option and number type, every percentile function that raises for an empty array", "why_tests_cant": "Failing calls are rarely followed by a look at the arguments; the failure can occur in any season and at any level.", "anchors": ["melodist/precipitation.py:build_casc", "melodist/precipitation.py:seasonal_subset"]}
{"id": "C124", "title": "The daily radiation models and the random wind in doubles", "statement": "In double precision: angstroem returns for every day a finite value of at least 0 within 1e-15 of the potential radiation of (a + b*ssd/day_length)*pot, never decreasing in the sunshine duration and the potential radiation; with a + b = 1 a day of full sunshine can all the same exceed the potential radiation (deviation). bristow_campbell returns a finite value between 0 and A*pot, A*pot not above pot, 0 on a day without temperature range, and within a month never decreasing in the temperature range and the potential radiation, whatever days have missing temperatures. disaggregate_wind(method='random') returns for each hour the daily wind times (-ln u)^0.3 up to 1e-14, never negative, never above three times the daily wind; a draw of exactly 0 gives inf, or NaN on a calm day (deviation).", "quantifier": "every length, every parameter pair or monthly table, all temperatures within 500 degrees, every exp/log/power as good as stated, every order of summation, every draw k/2^53", "why_tests_cant": "Rounding effects occur for single operands; the draws cannot be enumerated.", "anchors": ["melodist/radiation.py:angstroem", "melodist/radiation.py:bristow_campbell", "melodist/wind.py:disaggregate_wind"]}
{"id": "C125", "title": "Potential radiation in doubles", "statement": "In double precision, for flat terrain: at every time stamp the diffuse part of potential_radiation is a finite number within 1e-9 W/m2 of the formula evaluated exactly, and the direct part and the sum are within 1e-9 W/m2 as well unless they are NaN; the direct part is NaN exactly when the sine of the computed zenith angle or the cosine of the computed azimuth is NaN (for instance because the argument of the arc sine is rounded to more than 1; deviation). With the sun below the horizon by more than 1e-12 (sine of the elevation) the diffuse part is exactly 0 and the direct part exactly 0 or NaN. On any slope, at any time and place, each part is NaN or a finite number of at least 0, direct not above 6500 and diffuse not above 2200 W/m2, whatever the arc functions return.", "quantifier": "every time stamp, latitude and longitude up to 1000 degrees, time zone up to 100 hours, cloud fraction from 0 to 1, every sine and cosine correct to 1e-15 and bounded by 1, every arc sine and arc cosine", "why_tests_cant": "Rounding effects occur for single operands.", "anchors": ["melodist/radiation.py:potential_radiation"]}
{"id": "C126", "title": "Sun times in doubles", "statement": "In double precision get_sun_times gives one row per date in their order; at every place (the poles included) all four entries are finite, noon is within 1e-12 hours of the formula evaluated exactly, the day length is at least 0 and at most 24 hours plus 1e-11, and when noon lies between 0 and 24 so do sunrise and sunset. Up to 89 degrees of latitude: when the exact cosine of the sunrise hour angle is at most 0.999 in size, sunrise, sunset and day length are within 1e-8 hours of the exact ones (24 hours being added to a sunrise before 0 and taken from a sunset after 24, where only a time within 1e-8 of the limit may go either way); when it is below -1 by 1e-10 the sun never sets: sunrise and sunset 12 hours from noon and a day of 24 hours to 1e-11; when it is above 1 by 1e-10 the day length is exactly 0 and sunrise and sunset are noon.", "quantifier": "every list of dates, latitude and longitude up to 1000 degrees, time zone up to 100 hours, every sine, cosine, tangent and arc cosine correct to 1e-15", "why_tests_cant": "Rounding effects occur for single operands; the polar cases depend on a rounded comparison.", "anchors": ["melodist/util/util.py:get_sun_times"]}
{"id": "C127", "title": "Vapour pressure and dew point in doubles", "statement": "In double precision vapor_pressure is finite, never negative, within a relative error of 1.5e-13 (plus 1e-300) of the Magnus formula over water from the double 273.15 on and over ice below, exactly 0 for humidity 0, and for one temperature never decreases when the humidity increases. dewpoint_temperature is finite, within 1e-10 K of the exact dew point of the exact vapour pressure, at most 1e-10 K above the temperature, and within 1e-10 K of it at 100 percent; humidity 0 gives a missing dew point. A missing temperature or humidity gives a missing result and inputs of different length AssertionError. Hourly humidity by 'dewpoint_regression' and 'minimal' is therefore within 1e-10 of 100 times the quotient of the two exact saturation pressures, limited to 100.", "quantifier": "all temperatures from 150 to 400 K and humidities from 0 to 100 percent (at least 1e-6 percent for the dew point), every exponential function correct to 1e-15 relatively and logarithm correct to 1e-14", "why_tests_cant": "Rounding effects occur for single operands, and the freezing point is itself rounded.", "anchors": ["melodist/util/util.py:vapor_pressure", "melodist/util/util.py:dewpoint_temperature", "melodist/humidity.py:disaggregate_humidity"]}
{"id": "C128", "title": "Linear course of the dew point in doubles", "statement": "In double precision disaggregate_humidity with 'linear_dewpoint_variation' gives for every hour a value from 0 to 100 within 2e-9 percent of 100 times the exact saturation pressure at the exact dew point of that hour, divided by the exact saturation pressure at the air temperature, limited to 100; the exact dew point is a0 + a1 * tmin, moved linearly over the 24 hours to that of the following day (the last day being its own successor), plus 0.5 * sin((hour + 1) * pi / kr - 3 * pi / 4).", "quantifier": "every number of days, daily minima and hourly temperatures from 150 to 400 K, a0 up to 1000 and a1 up to 5 in size, kr 6 or 12, dew points from 151 to 399 K, every exponential function correct to 1e-15 relatively and sine correct to 1e-15", "why_tests_cant": "The value depends on two days and on transcendental functions; rounding effects occur for single operands.", "anchors": ["melodist/humidity.py:disaggregate_humidity", "melodist/util/util.py:vapor_pressure"]}
{"id": "C129", "title": "Hours of the temperature extremes from sun times in doubles", "statement": "In double precision disaggregate_temperature with a sine method and 'sun_loc' or 'sun_loc_shift', given the sun times of get_sun_times for its days, places the minimum of a day at the exact sunrise rounded to full hours, and the maximum two hours after the exact noon rounded to full hours; with monthly shifts at noon plus the shift of the month rounded to full hours, unless that is before the hour of the minimum, when it is two hours after noon again. (Within 2e-8 hours of a half hour either neighbour is possible.) Both are hours of the day. Every hour is within 1e-13 of the size of the extremes of the exact course with these hours, the day's maximum is found at the hour of the maximum and with the night-time variant the day's minimum at the hour of the minimum; 'sine_mean' keeps the daily mean.", "quantifier": "every number of days, place up to 89 degrees of latitude and time zone where each day has sunrise after midnight, three hours of daylight and noon before 21 o'clock; shifts of up to 8 hours that leave the maximum before 23 o'clock; every rounding to a nearest whole number and every trigonometric functions correct to 1e-15", "why_tests_cant": "The hours depend on rounding errors of the sun times, which show only near half hours.", "anchors": ["melodist/temperature.py:disaggregate_temperature", "melodist/util/util.py:get_sun_times"]}
{"id": "C130", "title": "Monthly shift of the temperature maximum in doubles", "statement": "In double precision get_shift_by_data on an hourly record of whole days has an entry for exactly the months into which days of the record fall; the entry is within 2e-9 hours of the mean, over the days of the month that have a value, of the first hour of the day's maximum less the exact solar noon of the day, and missing when no day of the month has a value. Temperatures disaggregated with 'sun_loc_shift' and this table have the maximum at noon plus that exact mean rounded to full hours (3e-8 hours around a half hour either neighbour is possible), or two hours after noon when this is before the hour of the minimum.", "quantifier": "every number of days, all temperatures finite or missing, every place and time zone, every mean correct to 1e-9; for the disaggregation the conditions of C129", "why_tests_cant": "Rounding errors of the sun times and of the mean show only for single days; ties between equal maxima are rare in records.", "anchors": ["melodist/temperature.py:get_shift_by_data", "melodist/temperature.py:disaggregate_temperature"]}
{"id": "C131", "title": "Calibrated shifts and months without data", "statement": "Disaggregating temperature with a sine method and 'sun_loc_shift', given a table of monthly shifts, raises KeyError when the month of some day is not in the table, whatever else the table holds; otherwise it raises ValueError when the shift of some day's month is missing; entries for months without a day of the record have no effect. With the table computed by get_shift_by_data from an hourly record this means: KeyError if some day falls in a month the record does not reach, else ValueError if some day falls in a month in which the record has no value, else the full hourly series of the days.", "quantifier": "every number of days, every table, every hourly record of whole days with numbers or missing values, all three sine methods, sun times with at least three hours of daylight", "why_tests_cant": "A table with a gap fails only for data in the gap, so a test on one season passes.", "anchors": ["melodist/temperature.py:disaggregate_temperature", "melodist/temperature.py:get_shift_by_data"]}
{"id": "C132", "title": "Humidity by month, hour and wet day in doubles", "statement": "In double precision a day of the observed record counts as wet exactly when one of its amounts is positive, however the sum of the day is formed. The entry of calculate_month_hour_precip_mean for a month, hour and kind of day exists exactly when the record has such an hour; it is within 1e-9 of the mean of the observed humidities of these hours, and missing when all of them are missing. disaggregate_humidity with 'month_hour_precip_mean' and this table raises KeyError when some hour of the daily record belongs to a class that was not observed, and otherwise gives every hour a humidity between 0 and 100 within 1e-9 of the mean of its class (missing if the class has no value); a day with missing precipitation counts as dry.", "quantifier": "every hourly record up to 2^53 rows with amounts from 0 to a million and humidities from 0 to 100, possibly missing; every number of days; every sum that is positive exactly when a term is, every mean correct to 1e-9", "why_tests_cant": "Whether rounding can turn a wet day dry or move a mean out of its range is not a matter of examples.", "anchors": ["melodist/humidity.py:calculate_month_hour_precip_mean", "melodist/humidity.py:disaggregate_humidity"]}
{"id": "C133", "title": "Radiation spread like the computed clear sky in doubles", "statement": "In double precision, disaggregate_radiation with 'pot_rad' and the potential radiation computed by potential_radiation for flat ground without clouds never fails on daily global radiation and returns 24 hours per day. On a day on which no computed potential value is missing and whose clear-sky mean is at least 1 W/m2, every hour is the daily value times the hour's share of the true clear-sky radiation, up to 3e-8 of the daily value, or exactly 0 where that amount is below 0.01 (up to the same error). An hour with the sun below the horizon is exactly 0, and the mean of the day is the daily value up to 0.01 W/m2 and 1e-13 of it.", "quantifier": "every number of days, every daily value up to 2^400, every place and time zone; every sine and cosine correct to 1e-15 and bounded by 1, every arc function, every mean correct to 3e-14", "why_tests_cant": "The errors of the computed solar geometry and of the scaling have to be bounded together, for all places and days.", "anchors": ["melodist/radiation.py:disaggregate_radiation", "melodist/radiation.py:potential_radiation"]}
{"id": "C134", "title": "When potential radiation computed in doubles is a number", "statement": "The azimuth of the sun is computed with an arc sine whose argument rounding may push above 1. Whenever the direction of the sun is at least 1e-5 off the great circle through east, zenith and west, or the sun is at least 1e-5 below the horizon, this does not happen: for every slope, azimuth and cloudiness potential_radiation returns a finite direct, diffuse and total value, and on flat ground the total is within 1e-9 W/m2 of the exact one. On such days disaggregate_radiation with 'pot_rad' spreads the daily value like the true clear sky, without asking anything of the computed values. On the equator this holds at every time of every day.", "quantifier": "every place, time zone, slope, azimuth, cloudiness and time; every sine and cosine and arc cosine correct to 1e-15, every arc sine returning numbers on -1..1", "why_tests_cant": "One ulp in the argument of the arc sine decides between a number and NaN; tests sample a few places.", "anchors": ["melodist/radiation.py:potential_radiation", "melodist/radiation.py:disaggregate_radiation"]}
{"id": "C135", "title": "Potential radiation on slopes in doubles", "statement": "On sloping terrain, potential_radiation in double precision returns a direct part within 1e-6 W/m2, a diffuse part within 1e-9 W/m2 and a total within 2e-6 W/m2 of the values of the published formulas in exact arithmetic, for every slope, azimuth and cloudiness, as long as the direction of the sun is at least 1e-3 off the great circle through east, zenith and west or the sun is at least 1e-3 below the horizon. The series it returns agrees to the same precision with the series of exact arithmetic.", "quantifier": "every place, time zone, slope, azimuth, cloudiness and time; every sine, cosine, arc sine and arc cosine correct to 1e-15", "why_tests_cant": "The azimuth is computed as an arc sine of a quotient, which is ill-conditioned; only an error analysis tells where it is harmless.", "anchors": ["melodist/radiation.py:potential_radiation"]}
{"id": "C136", "title": "Radiation from sunshine duration in doubles", "statement": "In double precision, disaggregate_radiation with 'pot_rad_via_ssd' succeeds on consecutive days when every day with daylight has its Angstroem parameters, and returns 24 hours per day. On a day whose potential values are not all next to nothing, whose parameters are between 0 and 1 and whose sunshine duration is not above the day length, the hours are the potential values scaled to a daily mean that is (a + b * ssd / daylength) times the mean potential radiation up to 1e-13; a day without daylight is exactly 0. With the potential radiation computed for flat ground without clouds, every hour is (a + b * ssd / daylength) times the true clear-sky radiation of that hour up to 2e-7 of the clear-sky mean, or exactly 0 where that is below 0.01, hours with the sun below the horizon are exactly 0, and the daily mean is right up to 0.01 W/m2 and 1e-8 of the clear-sky mean.", "quantifier": "every number of days, every sunshine duration, day length and parameters as stated, every place and time zone; every sine and cosine correct to 1e-15 and bounded by 1, every mean correct to 3e-14", "why_tests_cant": "The daily mean is multiplied in by the sunshine model and divided out by the scaling; that the errors of all steps stay small together is a statement about all inputs.", "anchors": ["melodist/radiation.py:disaggregate_radiation", "melodist/radiation.py:angstroem", "melodist/radiation.py:potential_radiation"]}
{"id": "C137", "title": "Radiation from the temperature range in doubles", "statement": "In double precision, disaggregate_radiation with 'pot_rad_via_bc' succeeds on consecutive days with a minimum and maximum column (missing entries allowed) and parameters for every month, and returns 24 hours per day. On a day with ordered temperatures, in a month of ordered or missing temperatures, whose potential values are not all next to nothing, the hours are the potential values scaled to a daily mean between 0 and A times the mean potential radiation (up to 1e-13); a day whose maximum equals the mean of the two minima around it is exactly 0. Of two days of the same calendar month with the same potential radiation, the one with the wider temperature range is not darker in any hour.", "quantifier": "every number of days, all temperatures within 500 degrees, A between 0 and 1, exponents up to 100; every exponential and power function that is monotone and right at 0, every monthly mean that is a number in range, every daily mean correct to 3e-14", "why_tests_cant": "Monotonicity in floating point holds or fails by single roundings; no sample of temperatures shows it.", "anchors": ["melodist/radiation.py:disaggregate_radiation", "melodist/radiation.py:bristow_campbell"]}
{"id": "C138", "title": "Sunshine duration and sun times that do not fit each other (deviation)", "statement": "disaggregate_radiation with 'pot_rad_via_ssd' accepts sun times that cover only some of the days: the days without sun times silently get radiation 0 in every hour, like days without daylight, while the days that are covered get (a + b * ssd / daylength) times their mean potential radiation in the shape of the potential radiation, and 24 missing hours where the sunshine duration is missing. If the sun times contain a day with daylight that is not in the daily data, the call raises KeyError. A sunshine duration above the day length is not limited: with a + b = 1 every hour with a potential radiation of at least 0.01 then exceeds the potential radiation.", "quantifier": "every number of days, every set of days covered by the sun times, every series of sunshine durations, parameters and potential radiation", "why_tests_cant": "Tests use sun times computed for exactly the days of the data; the effect of any other combination is a statement about all of them.", "anchors": ["melodist/radiation.py:disaggregate_radiation", "melodist/radiation.py:angstroem"]}
{"id": "C139", "title": "Radiation from the temperature range of a record with missing days", "statement": "bristow_campbell accepts daily temperatures with missing days. Its result has exactly the days of the record. A day whose following calendar day is missing from the record has no estimate (NaN), unless it is the last day, which takes its own minimum for the following one. Every other day with a positive temperature range gets A * (1 - exp(-B * range^C)) * potential radiation, the range being the maximum minus the mean of its own and the following day's minimum and B = 0.036 * exp(-0.154 * mean range), the mean taken over those days of the same calendar month, in all years, whose following day is known: the days before a gap do not enter it. Parameters may be numbers or given by month.", "quantifier": "every increasing list of days, all temperatures, potential radiation and parameters; the value formula for every kind of number and every implementation of mean, exp and power", "why_tests_cant": "The gaps can be anywhere and of any length; a test fixes one.", "anchors": ["melodist/radiation.py:bristow_campbell"]}
{"id": "C140", "title": "A record disaggregated as a whole or in pieces", "statement": "Cutting a gap-free daily record into two pieces, disaggregating each and putting the results one after the other gives the same hourly values as disaggregating the whole record, for: equal distribution (with or without division by 24), wind by 'equal' and 'cosine', temperature by 'mean_course_min_max' and 'mean_course_mean', temperature by 'sine_mean', humidity by 'equal', 'min_max', 'minimal' and 'dewpoint_regression' (each with or without the correction to the daily mean) and 'month_hour_precip_mean' (without it), radiation by 'pot_rad' and 'mean_course'. The other sine methods of temperature give the same values on all days except possibly the two days next to the cut, which lose a neighbour, and humidity by 'linear_dewpoint_variation' on all days except possibly the last day before the cut. It does not hold for the radiation model from the temperature range (bristow_campbell): the value of a day depends on the following day and on all days of its calendar month, so that a piece gives other values than the whole.", "quantifier": "every record, every place to cut it, missing values allowed, every course and potential radiation", "why_tests_cant": "Every length and every cutting point; a test tries one.", "anchors": ["melodist/util/util.py:distribute_equally", "melodist/wind.py:disaggregate_wind", "melodist/temperature.py:disaggregate_temperature", "melodist/humidity.py:disaggregate_humidity", "melodist/radiation.py:disaggregate_radiation", "melodist/radiation.py:bristow_campbell"]}
