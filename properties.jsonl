{"id": "C01", "title": "A rejected order has no effect", "statement": "If an exchange order is reported as not executed, then the account is bit-for-bit what it was before: base balance, quote balance and accumulated fee are all unchanged. Whatever the order reports, it never changes the account's units, liquidity or volume-ratio settings.", "quantifier": "every account, account config, OHLC tick and order, with every float value (NaN and infinities included)", "why_tests_cant": "A test samples a few rejected orders; the claim is about every reject path of every order type and every float value, including the partially computed ones.", "anchors": ["base/account.cc:Account::ExecuteOrder", "base/account.cc:Account::BuyBase", "base/account.cc:Account::SellBase", "base/account.cc:Account::BuyAtQuote", "base/account.cc:Account::SellAtQuote"]}
{"id": "C02", "title": "Balances never become negative", "statement": "Starting from finite non-negative balances, no sequence of valid orders over valid ticks can make the base balance, the quote balance or the accumulated fee negative, infinite or NaN, and none aborts, as long as no balance has exceeded 2^40 (with prices between 2^-26 and 2^26, units 0 or between 2^-30 and 2^20, relative fees of at most 1, fixed and minimum fees of at most 2^20). Beyond such ranges it can fail: a sale whose proceeds overflow can leave a NaN quote balance.", "quantifier": "every IEEE single-precision account state in range, every sequence of orders and ticks in range, all units, fees, liquidities and volume ratios in range", "why_tests_cant": "Rounding (to float and to the currency unit) happens at every step; only an argument over all floats and all order histories shows that no rounding pattern overdraws the account.", "anchors": ["base/account.cc:Account::ExecuteOrder", "base/account.cc:Account::BuyBase", "base/account.cc:Account::SellBase"]}
{"id": "C03", "title": "A buy settles exactly what it says", "statement": "A buy of an amount at a price executes exactly when the amount (rounded to the base unit) is at least one unit and its cost (rounded up to the quote unit) plus fee is covered by the quote balance; then base grows by that amount, quote shrinks by cost plus fee, and the accumulated fee grows by the fee.", "quantifier": "every account holding whole units, every amount, price and fee config (exact arithmetic)", "why_tests_cant": "The executes-exactly-when direction and the exact deltas are statements about all amounts and prices.", "anchors": ["base/account.cc:Account::BuyBase", "base/account.cc:Account::GetFee"]}
{"id": "C04", "title": "A sell settles exactly what it says", "statement": "A sell of an amount at a price executes exactly when the rounded amount is at least one unit, is covered by the base balance and brings at least one quote unit after the fee; then base shrinks by that amount, quote grows by the proceeds (rounded down) minus fee, and the accumulated fee grows by the fee.", "quantifier": "every account holding whole units, every amount, price and fee config (exact arithmetic)", "why_tests_cant": "The executes-exactly-when direction and the exact deltas are statements about all amounts and prices.", "anchors": ["base/account.cc:Account::SellBase", "base/account.cc:Account::GetFee"]}
{"id": "C05", "title": "The fee follows the fee schedule", "statement": "The charged fee is never below the minimum fee nor below fixed fee + relative fee * amount, exceeds the larger of the two by less than one quote unit, is a whole number of quote units, and never decreases when the amount grows.", "quantifier": "every fee config, quote unit and amount (exact arithmetic)", "why_tests_cant": "Monotonicity and the one-unit bound relate pairs of inputs over a continuum.", "anchors": ["base/account.cc:Account::GetFee", "base/account.cc:Ceil"]}
{"id": "C06", "title": "Trading creates no value", "statement": "At the execution price, no executed order increases base*price + quote + accumulated fee; so no sequence of orders executed at one price can increase the portfolio value at that price.", "quantifier": "every account holding whole units, every order executed at a price, every sequence of such orders (exact arithmetic)", "why_tests_cant": "A rounding in the trader's favour would be exploitable only for particular unit/price/amount combinations no test enumerates.", "anchors": ["base/account.cc:Account::BuyBase", "base/account.cc:Account::SellBase", "base/account.cc:Account::BuyAtQuote", "base/account.cc:Account::SellAtQuote"]}
{"id": "C07", "title": "A buy at quote spends at most the requested quote amount", "statement": "A buy order for a quote amount reduces the quote balance (fee included) by at most that amount after rounding it to the nearest whole quote unit (so by at most half a quote unit more than requested, and never more than requested when the request is a whole number of units).", "quantifier": "every account, quote amount, price, fee config and base cap", "why_tests_cant": "The amount is rounded, divided, floored, re-rounded and re-priced; only a proof covers all combinations (and the failing ones are isolated floats).", "anchors": ["base/account.cc:Account::BuyAtQuote", "base/account.h:BuyAtQuote"]}
{"id": "C08", "title": "A sell at quote receives at most the requested quote amount", "statement": "A sell order for a quote amount increases the quote balance (after fee) by at most that amount after rounding it to the nearest whole quote unit (so by at most half a quote unit more than requested, and never more when the request is a whole number of units).", "quantifier": "every account, quote amount, price, fee config and base cap", "why_tests_cant": "The code comment argues it informally; it needs monotonicity of amount minus fee over all amounts.", "anchors": ["base/account.cc:Account::SellAtQuote", "base/account.h:SellAtQuote"]}
{"id": "C09", "title": "Market orders execute between the open and the worst price of the tick", "statement": "A market buy executes at a price between the tick's open and high, a market sell between its low and open; liquidity 1 gives exactly the open, liquidity 0 exactly the worst price, and more liquidity never gives a worse price.", "quantifier": "every tick with low <= open <= high, every liquidity in [0,1]", "why_tests_cant": "Interpolation over a continuum of liquidities and prices; rounding may break it at isolated floats.", "anchors": ["base/account.cc:Account::GetMarketBuyPrice", "base/account.cc:Account::GetMarketSellPrice"]}
{"id": "C10", "title": "Stop orders trigger exactly when the tick reaches the stop price and never fill better than it", "statement": "A stop buy (sell) is executed only if the tick's high (low) reaches the stop price; its fill price is never better than the stop price nor than the open, nor worse than the tick's high (low).", "quantifier": "every tick, stop price, amount, account and liquidity in [0,1]", "why_tests_cant": "Boundary (equality) cases and gap opens must be right for every tick.", "anchors": ["base/account.cc:Account::StopBuy", "base/account.cc:Account::StopSell", "base/account.cc:Account::StopBuyAtQuote", "base/account.cc:Account::StopSellAtQuote", "base/account.cc:Account::GetStopBuyPrice", "base/account.cc:Account::GetStopSellPrice"]}
{"id": "C11", "title": "Limit orders trigger exactly when the tick reaches the limit price, fill at it and within the volume cap", "statement": "A limit buy (sell) is executed only if the tick's low (high) reaches the limit price; it is settled at exactly the limit price and for at most max_volume_ratio * tick volume of base currency (no cap when the ratio is zero).", "quantifier": "every tick, limit price, amount, account and volume ratio", "why_tests_cant": "Boundary cases and partial fills over all volumes and units.", "anchors": ["base/account.cc:Account::LimitBuy", "base/account.cc:Account::LimitSell", "base/account.cc:Account::LimitBuyAtQuote", "base/account.cc:Account::LimitSellAtQuote", "base/account.cc:Account::GetMaxBaseAmount"]}
{"id": "C12", "title": "Orders are dispatched by type, side and amount kind, with the fee config of their type", "statement": "Executing an order equals executing the market / stop / limit, buy / sell, base / quote operation it describes with the fee schedule configured for its type; with assertions enabled exactly the malformed orders (missing type or side, non-positive price of a non-market order, missing or non-positive amount) abort.", "quantifier": "every order message (every combination of present fields), account, config and tick", "why_tests_cant": "12 branches times presence bits times float edge values.", "anchors": ["base/account.cc:Account::ExecuteOrder", "base/account.cc:IsValidOrder"]}
{"id": "C13", "title": "The accumulated fee is the sum of the fees charged and never decreases", "statement": "Over any sequence of orders the accumulated fee never decreases and equals the sum of the fees of the executed orders.", "quantifier": "every sequence of orders and ticks from an account holding whole units (exact arithmetic)", "why_tests_cant": "Inductive over unbounded order histories.", "anchors": ["base/account.cc:Account::BuyBase", "base/account.cc:Account::SellBase"]}
{"id": "C14", "title": "Balances stay whole multiples of the currency units", "statement": "If the balances start as whole numbers of base and quote units they remain so after any sequence of orders.", "quantifier": "every sequence of orders and ticks, all units (exact arithmetic)", "why_tests_cant": "Inductive over unbounded order histories and all units.", "anchors": ["base/account.cc:Account::ExecuteOrder", "base/account.cc:Round"]}
{"id": "C15", "title": "The trader cannot see the future", "statement": "Everything the trader is shown and everything it causes (orders, balances, log lines) up to and including tick i is independent of all ticks after i and of all side input records after the time of tick i.", "quantifier": "every trader (any deterministic program), OHLC history, side input, account config and every cut point i", "why_tests_cant": "Non-interference relates two runs over all pairs of futures.", "anchors": ["eval/eval.cc:ExecuteTrader", "base/side_input.cc:SideInput::GetSideInputIndex", "base/trader.h:Trader::Update"]}
{"id": "C16", "title": "Side input signals are the latest known ones with their age", "statement": "At every update the trader receives the signals of the latest side input record at or before the tick's timestamp, followed by its age in seconds (zero or more); before the first record it receives an empty vector.", "quantifier": "every time-ordered OHLC history and every side input with increasing timestamps", "why_tests_cant": "The search uses a hint carried through the whole history; every gap pattern matters.", "anchors": ["eval/eval.cc:ExecuteTrader", "base/side_input.cc:SideInput::GetSideInputIndex"]}
{"id": "C17", "title": "Zero-volume ticks do not update the trader and keep its orders alive", "statement": "On a tick with zero volume the trader is not updated and emits nothing; the orders it emitted before are tried again on this tick and remain active for the next one.", "quantifier": "every history with any pattern of zero-volume ticks, every trader", "why_tests_cant": "Any number and position of gap ticks.", "anchors": ["eval/eval.cc:ExecuteTrader"]}
{"id": "C18", "title": "Every emitted order is tried exactly once per tick, in emission order, from the next tick until the next update", "statement": "The orders tried on a tick are exactly those emitted by the most recent earlier update, in emission order, each exactly once; orders of earlier updates are gone and orders are never tried on the tick they were emitted on.", "quantifier": "every trader, history and account config", "why_tests_cant": "A property of the whole interaction trace of unbounded length.", "anchors": ["eval/eval.cc:ExecuteTrader", "base/trader.h:Trader"]}
{"id": "C19", "title": "Fast evaluation and logging do not change results", "statement": "Running with or without a logger, and with or without fast evaluation, gives the same balances, prices, values, fees and order counts; fast evaluation only omits the two volatilities.", "quantifier": "every trader, history, side input and account config", "why_tests_cant": "Relates pairs of runs over all inputs.", "anchors": ["eval/eval.cc:ExecuteTrader"]}
{"id": "C20", "title": "The exchange log is complete", "statement": "The exchange log has, for each tick in order, one line with the account before the tick's orders, followed by one line per executed order with the account right after it; the reported number of executed orders equals the number of order lines, and the trader log has one line per tick with non-zero volume.", "quantifier": "every trader, history, side input and account config", "why_tests_cant": "Unbounded histories and order lists.", "anchors": ["eval/eval.cc:ExecuteTrader", "logging/csv_logger.cc:CsvLogger"]}
{"id": "C21", "title": "The execution result reports the run", "statement": "Start balances are the configured ones, end balances and fee are those of the account after the last tick, start and end price are the closes of the first and last tick, and values are quote + price * base; an empty history gives an empty result.", "quantifier": "every trader, history and account config", "why_tests_cant": "Universally quantified over runs.", "anchors": ["eval/eval.cc:ExecuteTrader"]}
{"id": "C22", "title": "Evaluation covers exactly the configured month windows", "statement": "With a positive evaluation period of m months, the evaluated periods are exactly the windows [start + k months, that + m months), k = 0, 1, 2, ... which end no later than the configured end and contain at least one tick, in order; each is run by a fresh trader over exactly the ticks inside the window.", "quantifier": "every config with a non-negative start time (at start 0: no tick before 1970, since 0 also means unbounded), time-ordered history and trader emitter", "why_tests_cant": "Unbounded number of windows over arbitrary calendars.", "anchors": ["eval/eval.cc:EvaluateTrader", "base/base.h:HistorySubset", "util/time.cc:AddMonthsToTimestampSec"]}
{"id": "C23", "title": "Evaluation over month windows terminates", "statement": "With a positive evaluation period the evaluation always finishes after finitely many windows.", "quantifier": "every config with a positive period and a non-negative start time (at start 0: no tick before 1970), time-ordered history and trader emitter whose traders return", "why_tests_cant": "Termination for all inputs.", "anchors": ["eval/eval.cc:EvaluateTrader", "util/time.cc:AddMonthsToTimestampSec"]}
{"id": "C24", "title": "Evaluation over the whole range gives one period, and only hangs without ticks", "statement": "With evaluation period zero, evaluating a trader over a time range that contains a tick finishes after one step and reports exactly one period, the whole range, with the result of running a fresh trader on the ticks in it. Over a range without ticks (and with a negative period) no result is ever returned: the loop does not end (the stronger claim that a result is always returned is refuted).", "quantifier": "every config with period zero and every history, including ranges that contain no ticks", "why_tests_cant": "The failing case (no ticks in range) never finishes, so a test can only hang.", "anchors": ["eval/eval.cc:EvaluateTrader"]}
{"id": "C25", "title": "Adding months is calendar-correct", "statement": "Adding k months keeps the time of day, and the day of month whenever the target month has it (otherwise the surplus days spill into the following month); adding zero months changes nothing; the result is strictly increasing in k.", "quantifier": "every timestamp and every integer number of months", "why_tests_cant": "All leap-year and month-length patterns over an unbounded calendar.", "anchors": ["util/time.cc:AddMonthsToTime", "util/time.cc:AddMonthsToTimestampSec"]}
{"id": "C26", "title": "One-month windows tile the time line exactly when the start is not after the 28th", "statement": "With an evaluation period of one month, each evaluation window starts exactly where the previous one ends if and only if the configured start lies on day 1 to 28 of its month; for later days some windows overlap (the unconditional claim is refuted).", "quantifier": "every start timestamp", "why_tests_cant": "Fails only for particular days of month and month lengths.", "anchors": ["eval/eval.cc:EvaluateTrader", "util/time.cc:AddMonthsToTimestampSec"]}
{"id": "C27", "title": "Batch evaluation is independent of scheduling", "statement": "Evaluating a batch of traders in parallel gives, for every interleaving of the tasks, exactly the vector of results of evaluating each trader alone, in the order of the emitters.", "quantifier": "every batch, every schedule", "why_tests_cant": "Schedules cannot be enumerated by tests.", "anchors": ["eval/eval.cc:EvaluateBatchOfTraders"]}
{"id": "C28", "title": "Averages and score are the means of the period results", "statement": "avg_gain, avg_base_gain, avg_total_executed_orders and avg_total_fee are the arithmetic means over the periods, and score the geometric mean of the ratios of trader gain to base gain; all are zero without periods. The result names the trader and carries the account and evaluation configurations it was obtained with.", "quantifier": "every list of periods (exact arithmetic)", "why_tests_cant": "Unbounded lists of reals.", "anchors": ["eval/eval.cc:GetAverage", "eval/eval.cc:GetGeometricAverage", "eval/eval.cc:EvaluateTrader"]}
{"id": "C29", "title": "Buy-and-hold scores exactly one", "statement": "A trader that executes no order, starting with one base unit and no quote balance, has in every period a final gain bit-equal to the base gain, and the score is exactly 1, for prices between 2^-60 and 2^60 and given pow(1, y) = 1 (with extreme prices the ratio overflows and the evaluation aborts: refuted).", "quantifier": "every history with prices in that range, every evaluation config with a positive period and start time (IEEE arithmetic)", "why_tests_cant": "Bit-exactness over all prices and numbers of periods.", "anchors": ["eval/eval.cc:EvaluateTrader", "eval/eval.cc:ExecuteTrader"]}
{"id": "C30", "title": "A history subset is exactly the records in the half-open interval", "statement": "Selecting [start, end) from a time-ordered history returns exactly the records with start <= timestamp < end in order; a non-positive bound means unbounded on that side.", "quantifier": "every time-ordered history (duplicates allowed) and all bounds with start <= end or a non-positive bound", "why_tests_cant": "Binary search over all lengths and duplicate patterns.", "anchors": ["base/base.h:HistorySubset", "base/base.h:HistorySubsetCopy"]}
{"id": "C31", "title": "Resampling computes the OHLC of each bucket", "statement": "Each resampled tick has, for the records of its time bucket, open = first price, high = maximum, low = minimum, close = last price, volume = sum; a bucket without records is flat at the previous close with zero volume.", "quantifier": "every time-ordered price history and every positive sampling rate, all float prices", "why_tests_cant": "Unbounded histories and gap patterns.", "anchors": ["base/history.cc:Resample", "README.md"]}
{"id": "C32", "title": "Resampled ticks form a gapless grid", "statement": "The timestamps of the resampled ticks are multiples of the sampling rate, start at the first record's bucket, end at the last record's bucket and increase by exactly one sampling period.", "quantifier": "every time-ordered price history and every positive sampling rate", "why_tests_cant": "Unbounded histories and gap patterns.", "anchors": ["base/history.cc:Resample"]}
{"id": "C33", "title": "Resampled ticks are well-formed", "statement": "If all prices are positive numbers and volumes are non-negative, each resampled tick has 0 < low <= open, close <= high and a non-negative volume, and every record's price lies in its tick's [low, high].", "quantifier": "every time-ordered price history with non-NaN prices (IEEE arithmetic)", "why_tests_cant": "Universally quantified over float prices.", "anchors": ["base/history.cc:Resample"]}
{"id": "C34", "title": "Outlier removal partitions the records", "statement": "The cleaned history is a subsequence of the input; the reported outlier indices are strictly increasing and are exactly the indices not kept; no kept record has a non-positive price or negative volume; the first well-formed record is kept; whether the indices are requested does not affect the result.", "quantifier": "every price history, every deviation parameter, all float values", "why_tests_cant": "Unbounded histories with any interleaving of bad records.", "anchors": ["base/history.cc:RemoveOutliers"]}
{"id": "C35", "title": "A record is dropped exactly when it is malformed or an unsupported jump", "statement": "A well-formed record is dropped exactly when its price leaves the allowed band around the last kept price and fewer than 3 of the next (at most 10) well-formed records confirm the jump.", "quantifier": "every price history and deviation parameter", "why_tests_cant": "The band depends on the last kept record, i.e. on the whole prefix.", "anchors": ["base/history.cc:RemoveOutliers"]}
{"id": "C36", "title": "Outlier context marks exactly the neighbourhoods of the selected outliers", "statement": "The returned map contains exactly the indices within the left/right context (clipped to the history) of one of the last n outliers, and maps an index to true exactly if it is one of those outliers.", "quantifier": "every increasing outlier list, history size, context sizes and n (no size overflow)", "why_tests_cant": "Overlapping contexts in all patterns.", "anchors": ["base/history.cc:GetOutlierIndicesWithContext"]}
{"id": "C37", "title": "The reported gaps are the largest ones in chronological order", "statement": "The reported gaps are gaps between consecutive records (plus the optional leading and trailing gap), exactly min(top_n, number of gaps) of them, sorted chronologically, and no unreported gap is longer than a reported one; among equally long gaps the earlier ones are reported. (For top_n = 0 with a positive start time the code reports one gap; shown as a refutation of 'at most top_n'.)", "quantifier": "every history (also unordered), all bounds and every top_n >= 1", "why_tests_cant": "Selection by a bounded priority queue over unbounded histories with ties.", "anchors": ["base/history.cc:GetPriceHistoryGaps"]}
{"id": "C38", "title": "Converted price histories are acceptable to the OHLC reader", "statement": "Outlier removal followed by resampling turns every accepted price history into an OHLC history that the OHLC proto reader accepts entirely (strictly increasing positive timestamps, valid prices and volumes): the resampling of the records that are not outliers.", "quantifier": "every price history accepted by the price reader, every positive sampling rate not exceeding the first timestamp, every deviation parameter", "why_tests_cant": "End-to-end over unbounded histories.", "anchors": ["convert.cc:ConvertPriceHistoryToOhlcHistory", "convert.cc:ReadOhlcHistoryFromDelimitedProtoFile"]}
{"id": "C39", "title": "Side input lookup finds the latest record", "statement": "The lookup returns the index of the last record with timestamp at or before the given time, and -1 if there is none.", "quantifier": "every side history with increasing positive timestamps and every timestamp", "why_tests_cant": "Binary search over all lengths.", "anchors": ["base/side_input.cc:SideInput::GetSideInputIndex"]}
{"id": "C40", "title": "The lookup hint does not change the answer", "statement": "Looking up with the index found for an earlier (or equal) time as a hint gives the same index as looking up without a hint, and never reads out of bounds.", "quantifier": "every side history, every pair of times t1 <= t2", "why_tests_cant": "Relates two computations; three code paths depending on distances to the end.", "anchors": ["base/side_input.cc:SideInput::GetSideInputIndex(int64_t,int)"]}
{"id": "C41", "title": "Signals are returned as stored", "statement": "For each record index the returned signals (all, or one by one) are exactly the signals of that record.", "quantifier": "every non-empty side history with a uniform number of signals and increasing positive timestamps", "why_tests_cant": "Index arithmetic in a flattened array for all sizes.", "anchors": ["base/side_input.cc:SideInput::SideInput", "base/side_input.cc:SideInput::GetSideInputSignal", "base/side_input.cc:SideInput::GetSideInputSignals"]}
{"id": "C42", "title": "The tick window holds the last N aggregated ticks", "statement": "After any sequence of updates with non-decreasing timestamps the window holds the last N ticks of the aggregation of the updates into periods (open of the first, extrema, close of the last, summed volume, flat zero-volume ticks for skipped periods).", "quantifier": "every update sequence, N and period", "why_tests_cant": "Unbounded update sequences and skip patterns.", "anchors": ["indicators/last_n_ohlc_ticks.cc:LastNOhlcTicks::Update"]}
{"id": "C43", "title": "Window callbacks reconstruct the window", "statement": "Replaying the added / added-and-removed / updated callbacks on an initially empty window reproduces the window after every update; removals start exactly when the window is full.", "quantifier": "every update sequence, N and period", "why_tests_cant": "Unbounded update sequences.", "anchors": ["indicators/last_n_ohlc_ticks.cc:LastNOhlcTicks::NewOhlcTickAdded", "indicators/last_n_ohlc_ticks.cc:LastNOhlcTicks::LastOhlcTickUpdated"]}
{"id": "C44", "title": "The simple moving average is the mean of the last N closes", "statement": "In exact arithmetic, after any update sequence the SMA equals the arithmetic mean of the closes of the last (at most) N aggregated ticks. (With floats the running sum drifts: window 1 with closes 2^25 and then 1 reports 0.)", "quantifier": "every update sequence, N and period", "why_tests_cant": "The code keeps a running sum; float drift shows only on particular long or badly scaled sequences.", "anchors": ["indicators/simple_moving_average.cc:SimpleMovingAverage"]}
{"id": "C45", "title": "The exponential moving average follows its recurrence over period closes", "statement": "After any update sequence the EMA is the recurrence ema = w*close + (1-w)*ema over the closes of the aggregated ticks (starting with the first close), regardless of how many updates each period received.", "quantifier": "every update sequence, weight and period, all float values (bit-exact)", "why_tests_cant": "Unbounded update sequences; in-period updates must replace, not compound.", "anchors": ["indicators/exponential_moving_average.cc:ExponentialMovingAverage", "indicators/util.cc:ExponentialMovingAverageHelper"]}
{"id": "C46", "title": "MACD is the difference of the two EMAs and its signal the EMA of the series", "statement": "After any update sequence the MACD series is fast EMA - slow EMA of the aggregated closes, the signal is the EMA of that series over the periods, and the divergence is their difference.", "quantifier": "every update sequence and parameters, all float values (bit-exact)", "why_tests_cant": "Unbounded update sequences.", "anchors": ["indicators/moving_average_convergence_divergence.cc:MovingAverageConvergenceDivergence"]}
{"id": "C47", "title": "RSI lies in [0,100] and reflects the smoothed changes", "statement": "After any update sequence the RSI is a finite number between 0 and 100 (floats included, for prices up to 2^127) and is 100 - 100/(1+U/D) for the modified moving averages U, D of the upward and downward changes of the aggregated closes; 50 if both vanish and 100 if D is negligible.", "quantifier": "every update sequence with positive finite prices, every number of periods", "why_tests_cant": "Range over all floats; unbounded sequences.", "anchors": ["indicators/relative_strength_index.cc:RelativeStrengthIndex"]}
{"id": "C48", "title": "The stochastic oscillator's extrema and %K are those of the last N ticks", "statement": "After any update sequence Low/High are the minimum low / maximum high of the last N aggregated ticks, %K is 100*(close-Low)/(High-Low) (50 on a flat range) and lies in [0,100], and %D-fast / %D-slow are 3-period means. With floats the extrema are exact, and %K may exceed 100 by at most 2^-17 for prices up to 2^120 (it does exceed 100 for low 1, high = close = 671092).", "quantifier": "every update sequence with valid ticks, every N", "why_tests_cant": "Unbounded update sequences through a monotone deque.", "anchors": ["indicators/stochastic_oscillator.cc:StochasticOscillator", "indicators/util.cc:SlidingWindowMinimum"]}
{"id": "C49", "title": "Sliding window minimum and maximum are correct", "statement": "After any sequence of add / update-current operations the reported minimum (maximum) is the minimum (maximum) of the last N current values, and the reported window size is their number.", "quantifier": "every operation sequence, every N >= 1, all non-NaN floats", "why_tests_cant": "Monotone deque over unbounded operation sequences.", "anchors": ["indicators/util.cc:SlidingWindowMinimum::AddNewValue", "indicators/util.h:SlidingWindowMaximum"]}
{"id": "C50", "title": "Sliding window mean and variance are those of the last N values", "statement": "After any sequence of add / update-current operations mean and variance are those of the last N values (of all values when N is 0) and the variance is never negative, in exact arithmetic; the reported window size is the number of those values. (With floats two equal values 1+2^-12 in a window of 2 give a negative variance and a NaN standard deviation.)", "quantifier": "every operation sequence and N", "why_tests_cant": "Running sums over unbounded sequences; cancellation can make the float variance negative only on particular inputs.", "anchors": ["indicators/util.cc:SlidingWindowMeanAndVariance"]}
{"id": "C51", "title": "Volatility is the standard deviation of periodic log returns", "statement": "After any update sequence the volatility is the standard deviation of the logarithmic returns of the portfolio value between consecutive periods (the first one relative to the opening price); a period without updates is valued at the last earlier close with the balances of the next update.", "quantifier": "every update sequence with positive portfolio values (exact arithmetic)", "why_tests_cant": "Unbounded update sequences.", "anchors": ["indicators/volatility.cc:Volatility"]}
{"id": "C52", "title": "Indicators depend only on the aggregated ticks", "statement": "EMA, MACD, RSI, stochastic oscillator and the window helpers give bit-identical values for any two update sequences that aggregate to the same periodic ticks.", "quantifier": "every pair of update sequences with the same aggregation, all float values", "why_tests_cant": "Relates pairs of unbounded sequences.", "anchors": ["indicators/last_n_ohlc_ticks.cc", "indicators/util.cc"]}
{"id": "C53", "title": "The stop trader emits exactly one valid stop order per update", "statement": "Each update emits exactly one order, a stop order: selling the whole base balance when the base value is at least the quote balance, otherwise buying with the whole quote balance; the trader returns exactly when timestamps are positive and increasing, prices positive and balances not both zero, and then (with a margin below 1 and prices within 2^-100..2^100) every emitted order is valid, with a finite positive price.", "quantifier": "every update sequence with increasing timestamps, positive prices and non-negative balances not both zero, every config with margin below 1 (IEEE)", "why_tests_cant": "All float balances and prices.", "anchors": ["traders/stop_trader.cc:StopTrader::Update", "traders/stop_trader.cc:StopTrader::EmitStopOrder"]}
{"id": "C54", "title": "The trailing stop only moves in the trader's favour", "statement": "While the mode does not change and no gap of an hour or more occurs, the stop price never decreases in long mode and never increases in cash mode, and when it moves it stays within the move margin of the current price. Without rounding it moves by exactly the daily rate compounded over the elapsed time (capped by the move margin), so over any stretch it changes by at most that rate.", "quantifier": "every update sequence and config, for arbitrary results of exp and log (IEEE)", "why_tests_cant": "Holds for all float inputs including inaccurate libm results.", "anchors": ["traders/stop_trader.cc:StopTrader::UpdateStopOrderPrice"]}
{"id": "C55", "title": "The stop price is re-initialised on mode change or gap", "statement": "On the first update, on every change between long and cash, and after a gap of at least one hour, the stop price is (1 -/+ margin) times the close.", "quantifier": "every update sequence and config", "why_tests_cant": "All histories.", "anchors": ["traders/stop_trader.cc:StopTrader::Update"]}
{"id": "C56", "title": "The rebalancing trader emits only valid orders", "statement": "Each update emits at most two orders: one market order outside the tolerance band, otherwise at most one limit sell above and one limit buy below the price; every emitted order is valid (positive amount and price) provided the tolerance band is not narrower than the float precision (alpha*epsilon >= 2^-19). (With epsilon = 0, or tiny, the trader can emit an order of amount zero, on which the exchange aborts: shown as refutations.)", "quantifier": "every price in 2^-19..2^19, balances up to 2^40 worth at least 2^-60, config 0 < alpha < 1, 0 < epsilon < 1, alpha*epsilon >= 2^-19 (IEEE); band membership without rounding", "why_tests_cant": "Positivity of float differences near the band edge.", "anchors": ["traders/rebalancing_trader.cc:RebalancingTrader::Update"]}
{"id": "C57", "title": "A market rebalance restores the target allocation", "statement": "Executing the emitted market order at the current price without fees makes the base share of the portfolio exactly alpha.", "quantifier": "all balances, prices and configs (exact arithmetic)", "why_tests_cant": "Continuum of inputs.", "anchors": ["traders/rebalancing_trader.cc:RebalancingTrader::Update", "traders/rebalancing_trader.ipynb"]}
{"id": "C58", "title": "The limit orders sit where the allocation reaches the band edge", "statement": "The amount of the limit sell (buy) order is the one that restores the share alpha when filled at the price where the base share reaches alpha*(1+epsilon) (alpha*(1-epsilon)). For a base balance of exactly one the order sits at that price. (For any other base balance b the emitted price is b times that price: the literal claim is refuted.)", "quantifier": "all balances inside the band (exact arithmetic)", "why_tests_cant": "Unit tests with one base unit cannot tell; the claim ranges over all base balances.", "anchors": ["traders/rebalancing_trader.cc:RebalancingTrader::Update", "traders/rebalancing_trader.ipynb"]}
{"id": "C59", "title": "Batch grids are full cartesian products without repetition", "statement": "A batch contains exactly one emitter per combination of the hyper-parameter lists, in lexicographic order, without repetition if the lists have none; the factory's batches have 20 and 144 traders with pairwise different names, and unknown trader names abort.", "quantifier": "all parameter lists", "why_tests_cant": "All list lengths.", "anchors": ["traders/rebalancing_trader.cc:RebalancingTraderEmitter::GetBatchOfTraders", "traders/stop_trader.cc:StopTraderEmitter::GetBatchOfTraders", "traders/trader_factory.cc"]}
{"id": "C60", "title": "Written histories are read back identically", "statement": "Reading the file written from any vector of PriceRecord, OhlcTick or SideInputRecord messages yields the same vector, with the same field presence and float bits.", "quantifier": "every vector of messages (any field presence, any int64 and any float bit pattern; each message below 2 GiB)", "why_tests_cant": "All messages and lengths.", "anchors": ["util/proto.h:WriteDelimitedMessagesToOStream", "util/proto.h:ReadDelimitedMessagesFromIStream"]}
{"id": "C61", "title": "A truncated file is detected or yields a prefix", "statement": "Reading any truncation of a written file yields a prefix of the messages, and reports success only if the cut is at a message boundary; otherwise it reports an error.", "quantifier": "every vector of messages and every crash (truncation) point", "why_tests_cant": "Every byte offset of every file.", "anchors": ["util/proto.h:ReadDelimitedMessagesFromIStream"]}
{"id": "C62", "title": "The streaming reader stops exactly where it is told", "statement": "The message callback is applied to the messages in order; a break stops with success, an error stops with an aborted status, and no later message is delivered.", "quantifier": "every callback and message sequence", "why_tests_cant": "All callbacks and positions.", "anchors": ["util/proto.h:ReadDelimitedMessagesFromIStream"]}
{"id": "C63", "title": "Readers accept only ordered, in-range, valid records", "statement": "Every history returned by the CSV and proto readers is time-ordered, lies in [start, end), has positive timestamps and only valid prices and volumes; reading stops at the first record at or after end and fails on the first invalid record in range.", "quantifier": "every input file and time range", "why_tests_cant": "All files.", "anchors": ["convert.cc:ReadPriceHistoryFromCsvFile", "convert.cc:ReadOhlcHistoryFromCsvFile", "convert.cc:ReadSideHistoryFromCsvFile", "convert.cc:ReadHistoryFromDelimitedProtoFile"]}
{"id": "C64", "title": "Every record of a CSV history comes from its own line", "statement": "Each line of a price / OHLC CSV file that carries all its numbers is turned into the record with exactly these numbers, whatever the lines around it look like; a file in which every line does is read exactly as written. (A line without numbers is not rejected: it silently repeats the record of the line before; this is shown as a refutation of the naive claim.)", "quantifier": "every CSV file", "why_tests_cant": "Only malformed lines in the middle of a file show it.", "anchors": ["convert.cc:ReadPriceHistoryFromCsvFile", "convert.cc:ReadOhlcHistoryFromCsvFile"]}
{"id": "C65", "title": "Every exchange log line has the 14 documented columns", "statement": "Every exchange log line consists of exactly 14 comma-separated columns and one newline, with the order columns filled exactly for executed orders.", "quantifier": "every tick, account and order", "why_tests_cant": "All messages.", "anchors": ["logging/csv_logger.cc:OhlcTickToCsv", "logging/csv_logger.cc:AccountToCsv", "logging/csv_logger.cc:OrderToCsv"]}
{"id": "C66", "title": "Durations are printed losslessly", "statement": "The printed h:mm:ss of a non-negative duration has minutes and seconds below 60 and denotes exactly that duration.", "quantifier": "every non-negative duration", "why_tests_cant": "All integers.", "anchors": ["convert.cc:DurationToString"]}
{"id": "C67", "title": "convert accepts exactly one input history", "statement": "The converter proceeds past flag checking exactly when exactly one input history file is given; otherwise it exits with failure, printing no gap and writing no file (C109 tells when it succeeds).", "quantifier": "every combination of flags", "why_tests_cant": "All combinations including both kinds of price input.", "anchors": ["convert.cc:main"]}
{"id": "C68", "title": "Times given as text mean what they say", "statement": "A time flag in one of the documented forms is read as exactly the second it denotes (with its zone offset) and is refused when it is not a day of the calendar or not a time of day; a time the programs print is read back as the same time. The words infinite-future and infinite-past stand for the ends of the timestamp range, and white space before a time does not matter.", "quantifier": "every date, time of day and zone offset, and every timestamp", "why_tests_cant": "All dates of all years and all zone offsets.", "anchors": ["util/time.cc:ParseTime", "util/time.cc:FormatTimeUTC"]}
{"id": "C69", "title": "convert: always an exit code; only complete valid histories are written", "statement": "For every content of the input files (arbitrary bytes, present or missing) and all flags with 0 < sampling rate <= start time, convert stops with an exit code. If it exits with failure (and the output files could have been opened) it has written no file and printed no gap. Every file it does write has the name given by the flag of its kind and is an undamaged, non-empty delimited file of valid, time-ordered records that lie in [start, end) (converted ticks may start up to one sampling period earlier).", "quantifier": "all file systems, all flag values with a positive sampling rate not larger than the start time, all number scanners", "why_tests_cant": "the input files are arbitrary byte strings and the flags arbitrary strings and numbers", "anchors": ["convert.cc: main", "convert.cc: ReadHistoryFromDelimitedProtoFile", "util/proto.h: ReadDelimitedMessages", "base/history.h"]}
{"id": "C70", "title": "convert: the output is exactly the input of the period", "statement": "If every line of the CSV input carries a valid record, convert exits with success and writes exactly the file of the records in [start, end): prices as they are, OHLC ticks as they are, side records as they are, and for a price input the OHLC output is the resampling of the prices without outliers and the printed gaps are those of the history. Copying a valid OHLC file gives the same bytes. Converting prices to a price file and that file to OHLC gives the same as converting in one step, for every input.", "quantifier": "all text files of valid lines, all flags, all file systems, all number scanners", "why_tests_cant": "the files have any length and the two-step equality quantifies over arbitrary input bytes", "anchors": ["convert.cc: main", "convert.cc: WriteHistory", "convert.cc: PrintPriceHistoryGaps", "util/proto.h: WriteDelimitedMessagesToFile"]}
{"id": "C71", "title": "Broken input files fail the program without side effects", "statement": "If the OHLC file (or the requested side input file) given to trader is missing or is not a sequence of whole messages - for instance cut off anywhere inside a record - trader exits with failure, prints no result and touches no log file. convert with a missing input file, or with a delimited price or OHLC file that is damaged after records all before the end time, exits with failure, prints nothing and writes nothing.", "quantifier": "all file systems, all damaged byte strings, all cut positions, all flags, all schedules", "why_tests_cant": "the damage can be anywhere in a file of any length", "anchors": ["trader.cc: main", "trader.cc: ReadHistory", "convert.cc: main", "util/proto.h: ReadDelimitedMessagesFromFile"]}
{"id": "C72", "title": "trader uses only the data of the period", "statement": "Two runs of trader with the same flags whose input files differ only in records outside [start, end) give the same exit code, the same printed table or ranking and the same log files.", "quantifier": "all pairs of file systems that agree on the period, all flags, all schedules", "why_tests_cant": "the inputs are arbitrary files", "anchors": ["trader.cc: main", "trader.cc: ReadHistory", "base/base.h: HistorySubsetCopy"]}
{"id": "C73", "title": "trader: the printed table and the log files are those of the run", "statement": "Without an evaluation period trader prints one line, for [start, end), whose gains, score and volatilities are those of one execution of the named trader over the ticks of the period from the balances of the flags; the log files hold one exchange line per recorded exchange event and one trader state line per trader update, in order. With a positive evaluation period it prints one line for each window [start + k months, + period months) that ends by end and has a tick, computed from the ticks of that window alone; asking for log files then is refused with exit code failure.", "quantifier": "all file systems with undamaged ordered input files, all flags", "why_tests_cant": "histories, flags and the number of windows are unbounded", "anchors": ["trader.cc: main", "trader.cc: PrintTraderEvalResult", "trader.cc: OpenLogFile", "eval/eval.cc: EvaluateTrader", "logging/csv_logger.h"]}
{"id": "C74", "title": "trader: the batch ranking", "statement": "With evaluate_batch trader prints the names and scores of the (at most) 20 best traders of the batch, best first: every trader of the batch has been evaluated as if it ran alone, the shown ones are min(20, n) of them, and no hidden one has a better score than a shown one. The output does not depend on how the parallel evaluations are interleaved.", "quantifier": "all file systems with undamaged ordered input files, all flags, all schedules, every correct sort", "why_tests_cant": "the schedules of the concurrent tasks cannot be enumerated by tests", "anchors": ["trader.cc: main", "trader.cc: PrintBatchEvalResults", "eval/eval.cc: EvaluateBatchOfTraders"]}
{"id": "C75", "title": "The books of a run balance", "statement": "Computed without rounding, every run that returns can be explained by a list of trades in the order of the ticks, one per executed order: each is a fair trade (covered by the balances it finds, at a price the tick of the trade offered, within the allowed share of the tick's volume for limit orders, charged the configured fee), the final balances are the opening balances plus all trades minus all fees, the reported total fee is the sum of the fees of the trades, the reported number of executed orders is the number of trades, and balances and fees are whole non-negative multiples of the units. Where the price never moves no trader gains: final value plus fees is at most the opening value.", "quantifier": "all exchange configurations, all traders (with asserts on, or any trader emitting well-formed orders), all histories, with or without side inputs and logging", "why_tests_cant": "the sum law must hold for every sequence of orders over histories of any length", "anchors": ["eval/eval.cc: ExecuteTrader", "base/account.cc: Account::ExecuteOrder", "base/account.cc: Account::GetFee"]}
{"id": "C76", "title": "The reported volatilities are those of the daily returns of the run", "statement": "An execution that is not fast reports two volatilities: sqrt(365) times the standard deviation of the daily logarithmic returns of the price, and the same of the value of the account as it was after each trader update; without rounding this is exactly the population deviation of ln of the ratios of consecutive daily values. A fast execution reports none.", "quantifier": "all arithmetics for the sampled values, exact arithmetic for the closed formula; all traders, configurations and histories", "why_tests_cant": "the sampled days and returns depend on arbitrary timestamps and trades", "anchors": ["eval/eval.cc: ExecuteTrader", "indicators/volatility.cc: Volatility::Update", "indicators/volatility.h: Volatility::GetVolatility"]}
{"id": "C77", "title": "Single-precision runs keep the balances on the unit grid", "statement": "In IEEE single precision, for prices, volumes, fees, units and emitted orders within the supported ranges: if no account written to the exchange log shows a balance beyond 2^40, then after every order of the run the balances and the accumulated fee are finite, non-negative, below the limit and floats nearest to a whole number of units - also in the reported result. The log is enough to tell: a run whose log shows no overflow had none.", "quantifier": "all traders, all histories of supported ticks, all supported configurations, every order of the run, IEEE binary32", "why_tests_cant": "rounding errors accumulate over runs of any length", "anchors": ["eval/eval.cc: ExecuteTrader", "base/account.cc: Account", "base/account.cc: Round"]}
{"id": "C78", "title": "The only ways in which a run can fail to return", "statement": "An execution over a history ordered by time returns exactly unless, after some of the ticks, one of the pending orders can be neither executed nor rejected on the next tick, or the trader refuses the update it is shown then; there is no other failure and no endless loop, and fast mode, logging and the evaluation bookkeeping never fail. A run of the stop or the rebalancing trader that returns (asserts on) has shown the trader positive prices at strictly increasing positive times and never an empty account.", "quantifier": "all arithmetics, all traders, all configurations, all ordered histories, all side inputs that match the history", "why_tests_cant": "absence of failure over unbounded histories is not testable", "anchors": ["eval/eval.cc: ExecuteTrader", "traders/stop_trader.cc: StopTrader::Update", "traders/rebalancing_trader.cc: RebalancingTrader::Update"]}
{"id": "C79", "title": "Every trader of the factory completes every run", "statement": "Computed without rounding: on an exchange with a positive base and quote unit and an opening account that is not empty, every run of every trader (and every batch member) that the trader factory creates returns, for every history of sane ticks with positive strictly increasing timestamps. The units are needed: without them a fee can eat all proceeds, and the trader then aborts on the empty account (a concrete single-precision run shows it).", "quantifier": "all solvent configurations, all factory traders, all such histories, exact arithmetic; one IEEE counterexample without units", "why_tests_cant": "the histories are unbounded", "anchors": ["traders/trader_factory.cc: GetTrader", "traders/trader_factory.cc: GetBatchOfTraders", "eval/eval.cc: ExecuteTrader", "traders/stop_trader.cc", "traders/rebalancing_trader.cc"]}
{"id": "C80", "title": "Single-precision runs of the factory traders return", "statement": "In IEEE single precision: on an exchange with supported settings, positive units and an opening account that owns something, every run of every trader (and every batch member) of the trader factory over ticks within the supported price range, at positive strictly increasing times, returns - whatever the floating-point library functions exp and log compute - unless a balance or the accumulated fee has exceeded 2^40 before. Every order these traders emit on the way is one the exchange can execute or reject.", "quantifier": "all supported configurations, all factory traders, all histories of supported ticks, all libm implementations, IEEE binary32", "why_tests_cant": "rounding could make an amount zero, negative, infinite or NaN at any point of an unbounded run", "anchors": ["traders/trader_factory.cc", "traders/stop_trader.cc: StopTrader::Update", "traders/rebalancing_trader.cc: RebalancingTrader::Update", "eval/eval.cc: ExecuteTrader", "base/account.cc: Account::ExecuteOrder"]}
{"id": "C81", "title": "Single-precision evaluations come to an end with a score", "statement": "With the real single-precision arithmetic, an evaluation of a trader the programs can create - over monthly windows or over a whole range that contains a tick, on a usable exchange and a strictly ordered market with prices in a wide range - returns a result: no assertion fires, no window loops for ever; likewise a batch under every schedule that gives each task enough steps, with one result per trader in order. The only alternative is that a balance exceeds 2^40.", "quantifier": "every history, configuration, evaluation range and schedule", "why_tests_cant": "All price paths and all rounding errors; the products of scores over any number of windows.", "anchors": ["eval/eval.cc:EvaluateTrader", "eval/eval.cc:GetGeometricAverage", "eval/eval.cc:EvaluateBatchOfTraders"]}
{"id": "C82", "title": "The trader program ends with a table or a ranking", "statement": "With readable input files whose ticks in the period are strictly ordered and sensibly priced, money flags in range, a known trader name and usable log flags, the trader program exits successfully and prints the table of periods (or, in batch mode, the ranking); nothing aborts and nothing is undefined, unless some balance exceeds 2^40.", "quantifier": "every environment, flags, history and schedule", "why_tests_cant": "All inputs of the whole program.", "anchors": ["trader.cc:main", "trader.cc:GetAccountConfig", "trader.cc:PrintBatchEvalResults"]}
{"id": "C83", "title": "Binary history files are exactly the protocol buffer wire format", "statement": "Reading a file succeeds with some messages exactly if its bytes are these messages in the delimited wire format (base-128 varints, fields in any order, last value wins, unknown fields skipped, repeated floats packed or not); every other file is reported as damaged; no file means two different histories; every written file is in the format.", "quantifier": "every byte sequence and every history", "why_tests_cant": "All byte sequences.", "anchors": ["util/proto.h:ReadDelimitedMessagesFromIStream", "util/proto.h:WriteDelimitedMessagesToOStream"]}
{"id": "C84", "title": "What convert writes, trader trades on", "statement": "Given a price CSV file whose records have prices between 2^-19 and 2^19 and volumes up to 2^16, at ordered times not before the first full sampling period, convert succeeds, and trader, started on the tick file it wrote (for any period and any sensible money flags, with or without a converted side history), prints its table or its ranking and exits successfully, unless a balance exceeds 2^40; the same for OHLC CSV files with strictly increasing times. A converted side history is usable as soon as one of its records lies in the period; if none does, starting trader with it is undefined behaviour.", "quantifier": "every price, OHLC and side file, all flags of both programs, every schedule and history", "why_tests_cant": "The two programs share only a file; that nothing convert accepts and writes makes trader abort or loop depends on every history, on the volume sums of every sampling period and on every rounding error.", "anchors": ["convert.cc:main", "trader.cc:main", "util/proto.h", "base/history.cc:Resample", "eval/eval.cc"]}
{"id": "C85", "title": "Single-precision trades follow the exchange rules to one part in a million", "statement": "In IEEE single precision, whenever an order is executed, a trade is booked that obeys the exchange rules up to a relative error of 2^-20 (and 2^-100 absolutely): the order was triggered by the tick; its price is that of its kind (open moved towards high or low by the liquidity, the limit price exactly for limit orders) within one part in four million and within the range of the tick; the base amount is the requested amount rounded to a base unit, capped by the volume ratio for limit orders, and never less than a unit; for an amount in quote currency the trade does not exceed it by more than four quote units; the quote amount is rounded up to a quote unit when buying and down when selling; the fee is the larger of the minimum and fixed plus relative fee, rounded up to a quote unit; the account could pay for it; and base balance, quote balance and accumulated fee change by exactly these amounts up to the same error.", "quantifier": "all supported configurations, accounts, ticks and orders, IEEE binary32", "why_tests_cant": "The rounding errors of some ten float operations combine differently for every input.", "anchors": ["base/account.cc:Account::ExecuteOrder", "base/account.cc:Account::Buy", "base/account.cc:Account::Sell", "base/account.cc:Account::GetFee", "base/account.cc: Round"]}
{"id": "C86", "title": "Single-precision books count units exactly", "statement": "In IEEE single precision: as long as no balance exceeds 2^20 units, each balance is the float nearest to a whole number of units, and these whole numbers follow the trades with no error at all, over any sequence of orders: the final numbers of units are the initial ones plus the sum of the trades' units, and every quote unit that leaves the quote balance has bought base or is found in the accumulated fee.", "quantifier": "all supported configurations, all sequences of supported orders and ticks of any length, IEEE binary32", "why_tests_cant": "Rounding errors could accumulate over sequences of any length.", "anchors": ["base/account.cc:Account::ExecuteOrder", "base/account.cc: Round", "base/account.cc:Account::Buy", "base/account.cc:Account::Sell"]}
{"id": "C87", "title": "Single-precision trades create no value", "statement": "In IEEE single precision: valued at the price of the trade, the units held plus the fees paid are worth no more after a trade than before, and at most one quote unit less, up to a relative error of about one part in half a million of the trade.", "quantifier": "all supported accounts, orders and ticks, all trades, IEEE binary32", "why_tests_cant": "All amounts, prices and rounding errors.", "anchors": ["base/account.cc:Account::Buy", "base/account.cc:Account::Sell"]}
{"id": "C88", "title": "Printed numbers are the nearest thousandths", "statement": "Every finite number in the log files is printed as the decimal with three places nearest to the single-precision value: reading the text back gives a multiple of 0.001 at most 0.0005 away, the value itself when it is a multiple of 0.001, and never a smaller number for a larger value; infinities and NaN are not printed as numbers. Hence from the exchange log of any run one reads back, line by line, the ticks, the balances, the fees and the executed orders to within half a thousandth.", "quantifier": "every single-precision value, every run, every line and column of the exchange log, IEEE binary32", "why_tests_cant": "All 2^32 values and all runs.", "anchors": ["logging/csv_logger.cc:OhlcTickToCsv", "logging/csv_logger.cc:AccountToCsv", "logging/csv_logger.cc:OrderToCsv"]}
{"id": "C89", "title": "Single-precision runs are booked in whole units, without error", "statement": "In IEEE single precision, for a run that starts with a whole number of base units and of quote units: unless its log shows more than 2^20 units of something, there is a ledger of whole numbers of units, one entry for each executed order and none for the rejected ones, in the order of execution, such that the reported final base and quote balances and the reported total fee are the floats nearest to exactly the opening units plus the sums of the entries. For every trader the programs can create no condition on the orders is needed.", "quantifier": "all runs of supported configurations over supported ticks, of any length; all factory traders; IEEE binary32", "why_tests_cant": "Rounding errors could accumulate over runs of any length.", "anchors": ["eval/eval.cc:ExecuteTrader", "base/account.cc:Account::ExecuteOrder", "traders/trader_factory.cc:GetTrader", "traders/trader_factory.cc:GetBatchOfTraders"]}
{"id": "C90", "title": "A batch gives the same results under every preemptive schedule, and returns under every fair one", "statement": "Evaluating a batch of traders runs one task per emitter, started one after the other by the main thread, each in its own thread or deferred until its result is asked for. However the threads are preempted (between any two of: choosing a window, looking up the side input, executing each single order, updating the trader, each volatility update, computing the period), in whatever order the tasks are started relative to the running ones, and whichever of them are deferred: if the call returns, entry i of the result is what trader i evaluated on its own gives; if every trader on its own evaluates to a result, the call cannot end in any other way, it never deadlocks, and it does return under every schedule in which every thread gets a turn again and again; if it aborts, some trader on its own aborts, and if some trader on its own aborts the call never returns results.", "quantifier": "all lists of emitters, all finite and all fair infinite schedules with preemption, all launch policies, all configurations and histories", "why_tests_cant": "Thread schedules cannot be enumerated; a run of the program shows only one of them.", "anchors": ["eval/eval.cc:EvaluateBatchOfTraders", "eval/eval.cc:EvaluateTrader", "eval/eval.cc:ExecuteTrader"]}
{"id": "C91", "title": "Integer arithmetic does not overflow on realistic data", "statement": "With all timestamps within 2^60 seconds of 1970 and the sizes realistic (a span of fewer than about 2^31 indicator periods, fewer than 2^31 executed orders, side-input signals and months), no int64_t or int operation of resampling, gap search, outlier removal, side-input lookup, the indicators, StopTrader, ExecuteTrader or EvaluateTrader overflows: the program with checked integer arithmetic has exactly the outcome of the program with unbounded integers, on every input, also those on which it aborts. Outside these bounds overflow (undefined behaviour) does happen: at timestamps next to the end of int64_t, with a 70-year gap in one-second periods, and in the evaluation of a range without ticks.", "quantifier": "all histories, side inputs, traders, configurations and sequences of updates within the stated ranges; every float arithmetic", "why_tests_cant": "a test checks single timestamps; overflow is undefined behaviour that may stay silent, and counters overflow only after 2^31 steps", "anchors": ["base/history.cc:Resample", "base/history.cc:GetPriceHistoryGaps", "base/side_input.cc:SideInput::GetSideInputIndex", "indicators/last_n_ohlc_ticks.cc:LastNOhlcTicks::Update", "traders/stop_trader.cc:StopTrader::Update", "eval/eval.cc:ExecuteTrader", "eval/eval.cc:EvaluateTrader", "util/time.cc:AddMonthsToTime"]}
{"id": "C92", "title": "The float simple moving average drifts at most linearly", "statement": "With IEEE single-precision floats, prices (closes) of magnitude at most 2^k and a window of at most 2^20 periods, the simple moving average reported after any sequence of updates is finite and differs from the exact mean of the last N period closes by at most (number of updates + number of periods) * 2^-20 * 2^k, as long as that number is at most 2^23. (It is not always the correctly rounded mean: see C44_float_refuted.)", "quantifier": "all ordered sequences of updates, all period lengths, window sizes up to 2^20 and price bounds 2^-100..2^100; every price path", "why_tests_cant": "a running sum accumulates rounding errors over the whole history; a test sees one short path and one tolerance", "anchors": ["indicators/simple_moving_average.cc:SimpleMovingAverage::Update", "indicators/simple_moving_average.cc:SimpleMovingAverage::GetSimpleMovingAverage", "indicators/last_n_ohlc_ticks.cc:LastNOhlcTicks::Update"]}
{"id": "C93", "title": "The float exponential moving averages stay within a fixed distance of the exact ones", "statement": "With IEEE single-precision floats and closes of magnitude at most 2^k, the exponential moving average with weight W = smoothing/(1+length) between 2^-19 and 1 is, after any number of updates, finite and within 2^-20 * 2^k / W of the exact exponential moving average of the period closes with the exact weight W: the error does not grow with the length of the history. For MACD with lengths below 2^20 the fast and slow averages, the series, the signal and the divergence are all within a fixed multiple (linear in the lengths) of 2^-21 * 2^k of their exact values.", "quantifier": "all ordered sequences of updates of any length, all period lengths, smoothing values, lengths and price bounds 2^-98..2^97", "why_tests_cant": "the bound is for histories of every length; a test compares a few values with a tolerance", "anchors": ["indicators/exponential_moving_average.cc:ExponentialMovingAverage::Update", "indicators/util.cc:ExponentialMovingAverageHelper::UpdateCurrentValue", "indicators/moving_average_convergence_divergence.cc:MovingAverageConvergenceDivergence::Update"]}
{"id": "C94", "title": "The float averages of an evaluation are the means up to a few rounding errors", "statement": "With IEEE single-precision floats, for an evaluation with n periods (1 <= n <= 2^20) whose gains, base gains and fees are finite, not negative and at most 2^100 and whose order counts are at most 2^24, the reported average gain, average base gain, average fee and average number of executed orders are finite and each within (n+1) * 2^-23 * mean + 2^-150 of the exact mean of the periods' values.", "quantifier": "all evaluations that return a result with at least one and at most 2^20 periods: every trader, history, configuration, logger; every value of the periods in the stated ranges", "why_tests_cant": "a sum of n floats accumulates up to n rounding errors; a test compares a handful of values with a tolerance", "anchors": ["eval/eval.cc:GetAverage", "eval/eval.cc:EvaluateTrader"]}
{"id": "C95", "title": "The float score of an evaluation is the geometric mean up to a relative error of 2^-22", "statement": "With IEEE floats and a C library whose pow has a relative error of at most 2^-40 away from overflow and underflow, for an evaluation with n >= 1 periods whose ratios gain / base gain lie between 2^-j and 2^j with (j+1)*n <= 1000 and j <= 100, the score is finite and within 2^-22 * g of g, the positive number whose n-th power is the product of the exact ratios. The error does not grow with the number of periods.", "quantifier": "all evaluations that return a result with at least one period and ratios in the stated range, every pow satisfying the accuracy condition", "why_tests_cant": "the score goes through float division, conversion to double, a product of n doubles, a rounded reciprocal as the exponent and pow; a test checks a few scores with a tolerance", "anchors": ["eval/eval.cc:GetGeometricAverage", "eval/eval.cc:EvaluateTrader"]}
{"id": "C96", "title": "Single-precision market rebalances happen outside the band and restore the target share", "statement": "With IEEE single-precision floats, prices between 2^-19 and 2^19, balances up to 2^40 and a band alpha*epsilon of at least 2^-19: whenever the base currency's share of the portfolio exceeds alpha*(1+epsilon) by more than 2^-20 the rebalancing trader emits exactly one market sell, whenever it is below alpha*(1-epsilon) by more than 2^-20 exactly one market buy; it emits a market order only if the share is outside the band up to 2^-20; and the emitted amount is finite, positive and such that filling it at the price the trader saw brings the share to alpha up to 2^-20.", "quantifier": "all sequences of updates shown to the trader, all prices and balances in the stated ranges, all alpha and epsilon in (0,1) with alpha*epsilon >= 2^-19", "why_tests_cant": "the decision compares rounded quotients and products and the amount is a difference of nearly equal rounded products; a test checks a few portfolios", "anchors": ["traders/rebalancing_trader.cc:RebalancingTrader::Update"]}
{"id": "C97", "title": "Single-precision limit rebalances have the prices and amounts of the formulas", "statement": "With IEEE single-precision floats and the ranges of C96, every limit sell (buy) order of the rebalancing trader has the amount base*epsilon/(1+epsilon) (base*epsilon/(1-epsilon)) up to a relative error of 2^-22, and, with A = alpha*(1+epsilon) (alpha*(1-epsilon)) and 1-A at least 2^-16, the price A*quote/(1-A) up to a relative error of 2^-21/(1-A). (That this price omits the division by the base balance is C58_literal_refuted.)", "quantifier": "all sequences of updates, all prices, balances, alpha and epsilon in the stated ranges", "why_tests_cant": "1-A cancels when alpha*(1+epsilon) is close to 1, so the error depends on the configuration; a test checks a few", "anchors": ["traders/rebalancing_trader.cc:RebalancingTrader::Update"]}
{"id": "C98", "title": "The trader log tells what the trader saw and did", "statement": "In a run with a CSV logger, the trader log grows by exactly one line per tick on which the trader was updated, in order. A rebalancing trader's line has the columns: time of the tick, base and quote balance after the tick's orders, closing price of the tick. A stop trader's line adds LONG or CASH and a price, and these agree with the one stop order it emitted on that tick: LONG with an order to sell the whole base balance at that price, CASH with an order to spend the whole quote balance at that price.", "quantifier": "all configurations, side inputs, tick sequences and fast/slow evaluations for which the run returns", "why_tests_cant": "the logged state is written by a different statement than the orders; a test compares the state after a few updates", "anchors": ["traders/rebalancing_trader.cc:RebalancingTrader::GetInternalState", "traders/stop_trader.cc:StopTrader::GetInternalState", "logging/csv_logger.cc:CsvLogger::LogTraderState", "eval/eval.cc:ExecuteTrader"]}
{"id": "C99", "title": "Exactly the documented texts are times", "statement": "A text is accepted as a time if and only if, after removing surrounding white space, it is: infinite-future or infinite-past; or a date of the calendar (year with any number of digits, possibly negative; month and day with one or two digits), alone, or followed by a clock hh:mm:ss (one or two digits each, 0-23, 0-59, 0-60), or by a zone (Z or a sign and hh, hhmm, hhmmss with two digits each and optional colons), or by both; date and clock are separated by T or t (then a zone must follow at once) or by white space, which may be missing if the day has two digits; white space before a zone is optional. The time is the one of the date, clock and zone in the Gregorian calendar (UTC without a zone). Every other text is refused, and no text stands for two times.", "quantifier": "all texts", "why_tests_cant": "a test tries a few good and a few bad texts; the accepted language is infinite, and five formats are tried in turn, so an earlier format might capture a text meant for a later one", "anchors": ["util/time.cc:ParseTime", "util/time.cc:kAllowedTimeFormats"]}
{"id": "C100", "title": "A refused input is refused with the right line or record", "statement": "When convert refuses a history, its message names the first line (counted from 1, with its text) or the first message (counted among the accepted ones from 0) that lies in the selected period and does not meet the requirements, and the first requirement it breaks: timestamp (positive and not before - for side input: after - every record accepted before), then prices, then volume (for side input: number of signals). Every record accepted before it meets all requirements. A damaged delimited file is reported as such only if no earlier message is refused or ends the reading.", "quantifier": "all lists of lines, all file contents, all periods", "why_tests_cant": "tests feed one bad line; the reported line must be right for every position of the bad line among skipped, accepted and later bad lines", "anchors": ["convert.cc:ReadPriceHistoryFromCsvFile", "convert.cc:ReadOhlcHistoryFromCsvFile", "convert.cc:ReadSideHistoryFromCsvFile", "convert.cc:ReadHistoryFromDelimitedProtoFile", "util/proto.h:ReadDelimitedMessagesFromIStream"]}
{"id": "C101", "title": "The outlier report shows what was removed", "statement": "When convert turns prices into OHLC ticks it prints the number of removed outliers (C35), then the last n of them (all if n is not positive) in chronological order, each with up to five neighbouring records on either side, every record once, outliers marked with x; a line with dots appears exactly between shown records that are not neighbours. A record is shown by its time (as a number and as a UTC date), its price to the nearest hundredth and its volume to the nearest ten-thousandth. The last line gives the numbers of resampled records and of resulting ticks.", "quantifier": "all price histories shorter than 2^63, all deviations, rates and int values of last_n_outliers", "why_tests_cant": "a test compares one printed report; marks, dots and counts depend on how the neighbourhoods of outliers overlap", "anchors": ["convert.cc:PrintOutliersWithContext", "convert.cc:ConvertPriceHistoryToOhlcHistory", "base/history.cc:GetOutlierIndicesWithContext"]}
{"id": "C102", "title": "convert says what it did", "statement": "convert prints an error if and only if it exits with failure; the error is then the last line, the only one, and states the reason that applies: which time cannot be read, how the input flags conflict, which file cannot be opened, why the input is refused (C100), or which output cannot be written. Every written file is announced with its name and number of records, and the reported gaps (C37) are printed one per line under a heading with the requested number. Printing changes nothing else: exit code, written files and whether the program returns at all are those of C69 to C71.", "quantifier": "all flags, file systems and number scanners", "why_tests_cant": "every early exit of main is a separate path; tests run a few of them", "anchors": ["convert.cc:main", "convert.cc:CheckOk", "convert.cc:WriteHistoryToDelimitedProtoFile"]}
{"id": "C103", "title": "trader says what it did", "statement": "trader prints an error if and only if it exits with failure; the error is the last line, the only one, and states the reason that applies. Otherwise the console tells how many records were read from each input and how many of them are used, and ends with the ranking (name and score to the nearest 1e-5 per line, C74) or with the table (C73): one line per period with its two times, both gains in percent to the nearest hundredth, and score and both volatilities to the nearest thousandth, right-aligned; split at white space every line has exactly ten words. Non-finite numbers are shown as inf, -inf or nan. Exit code, log files and termination are those without the console.", "quantifier": "all flags, file systems, sorts and schedules", "why_tests_cant": "every early exit of main is a separate path; the printed numbers range over all floats", "anchors": ["trader.cc:main", "trader.cc:PrintTraderEvalResult", "trader.cc:PrintBatchEvalResults", "trader.cc:ReadHistory", "trader.cc:OpenLogFile"]}
{"id": "C104", "title": "A CSV file is read as what its text says", "statement": "A price or OHLC CSV file whose lines consist of an integer time and decimal numbers (optional sign, digits, point, exponent; white space is allowed in front of a number, anything may follow the last column after a comma or white space, e.g. a carriage return) is accepted if and only if the records in the selected range are valid, and then yields exactly the records with these times and with the floats nearest to the written numbers (ties to even, with the written sign). The same holds for side CSV files, whose numbers may be separated by commas or white space. A first line of column names is skipped if a start time is given, otherwise the file is refused (a side file always). White space in front of a comma is not harmless: the columns after it silently keep the values of the line before.", "quantifier": "all files of such lines, all periods, all number scanners that read decimal numbers as the C and C++ standards require", "why_tests_cant": "a test reads a few numbers; correct rounding, sign, exponent and separators must be right for every decimal text", "anchors": ["convert.cc:ReadPriceHistoryFromCsvFile", "convert.cc:ReadOhlcHistoryFromCsvFile", "convert.cc:ReadSideHistoryFromCsvFile"]}
{"id": "C105", "title": "Rounding never makes a sensible CSV file unreadable", "statement": "If in every line of a CSV file the numbers, as they are written, make a sensible record - positive time, price (or low) not below the smallest positive float, low <= open, close <= high, volume not negative, nothing above the largest float - and the times do not decrease, then convert accepts the file and writes exactly the records of the selected period, however the numbers are rounded to floats. The converse fails: a contradiction such as low > high that vanishes by rounding is accepted.", "quantifier": "all such files, all periods and flags, all number scanners that read decimal numbers correctly", "why_tests_cant": "rounding to float may merge or shift the compared numbers; tests use numbers that floats represent well", "anchors": ["convert.cc:ReadPriceHistoryFromCsvFile", "convert.cc:ReadOhlcHistoryFromCsvFile", "convert.cc:main"]}
{"id": "C106", "title": "Float accuracy of the sliding mean, variance and standard deviation", "statement": "Run with IEEE floats over N <= 2^19 values of magnitude at most 2^k, the sliding-window helper's mean is finite and within N*2^-19*2^k of the exact mean of the values in the window, its variance is finite and within N*2^-17*2^(2k) of the exact variance; its standard deviation is a number or NaN, NaN only if the exact variance is within that error, and a number within sqrt(N)*2^-8*2^k (and within twice the variance error divided by the deviation) of the exact standard deviation.", "quantifier": "every window size, every legal sequence of additions and replacements of finite float values of magnitude at most 2^k, -50 <= k <= 50, up to 2^19 values", "why_tests_cant": "the error of the running sums accumulates over the whole history; tests compare a few windows with a tolerance", "anchors": ["indicators/util.cc:SlidingWindowMeanAndVariance", "indicators/util.h:SlidingWindowMeanAndVariance"]}
{"id": "C107", "title": "Float accuracy of the volatility", "statement": "Run with IEEE floats and a logf with relative error at most 2^-22, the volatility indicator over N <= 2^19 periods differs from the exact volatility of the same balances and prices (C51) by at most sqrt(N)*2^-7 times the bound 2^k on the logarithmic returns plus 2^-20*(1+2^k); it is never negative or infinite, and NaN only if the exact volatility is at most that tolerance.", "quantifier": "every window size, every period length, every time-ordered sequence of ticks with finite positive prices and finite non-negative balances whose exact portfolio values stay within [2^-60, 2^60] and whose returns stay within 2^k, -18 <= k <= 6", "why_tests_cant": "rounding in the portfolio values, quotients, logarithms and running sums over an arbitrarily long history", "anchors": ["indicators/volatility.cc:Volatility", "indicators/util.cc:SlidingWindowMeanAndVariance"]}
{"id": "C108", "title": "From the text of a CSV file to the printed results", "statement": "Take a CSV file of prices whose every line is a decimal time and two decimal numbers, in order of time, with prices between 2^-19 and 2^19 and volumes up to 2^16 as they are written (in any decimal notation, with spaces, carriage returns or further columns), or a CSV file of OHLC lines with such numbers, low <= open, close <= high, at strictly increasing positive times. Then convert, asked to write an OHLC file, exits with success, and trader, run on that file with a known trader, sensible flags and something to evaluate, prints its table (or ranking) and exits with success, unless some run makes its account exceed the supported range of balances. A side file of decimal numbers with valid records, converted, is the side data of trader's period.", "quantifier": "all file texts made of such lines, all number scanners that read decimal numbers as the C standard requires, all flags, file systems, schedules and asserts on or off", "why_tests_cant": "A test feeds one file; the claim is about every text of such lines, every way of writing the numbers and every rounding of them, through two programs.", "anchors": ["convert.cc:main", "convert.cc:ReadPriceHistoryFromCsvFile", "convert.cc:ReadOhlcHistoryFromCsvFile", "trader.cc:main"]}
{"id": "C109", "title": "The exit code of convert", "statement": "With parsable times and one readable input (a CSV file of decimal numbers or an undamaged delimited file) whose prices can be sampled, convert returns, and its exit code is success if and only if the records it uses (those from the start time on, up to the first one at or after the end time) are valid - positive times in order and sensible prices, volumes or signals - and every output file that it has to write for them can be opened. If a time cannot be parsed, or none or several input files are given, or the input file cannot be opened, it exits with failure and writes nothing.", "quantifier": "all flags, file systems and file contents of these forms, all scanners that read decimal numbers as the C standard requires, asserts on or off", "why_tests_cant": "Success and failure must be decided correctly for every file; a test sees one verdict of each kind.", "anchors": ["convert.cc:main", "convert.cc:ReadPriceHistoryFromCsvFile", "convert.cc:ReadHistoryFromDelimitedProtoFile", "convert.cc:WriteHistoryToDelimitedProtoFile"]}
{"id": "C110", "title": "Float error of the RSI", "statement": "In IEEE single precision, for an RSI over n <= 2^20 periods fed any number of updates with finite prices, if no price change from period to period exceeds 2^k, both reported averages (upward, downward) are within n * 2^-20 * 2^k of the exact modified moving averages U and D of the exact price changes - the error does not grow with the number of updates. If U + D is not negligible (at least 2^-18 plus twice that error) the reported index is within 100 * n * 2^(k-20) / (U + D) + 2^-13 of 100 * U / (U + D). If no price change exceeds 2^-21 the index is exactly 50.", "quantifier": "all update sequences in time order of any length, all n from 1 to 2^20, all k from -100 to 100, IEEE binary32", "why_tests_cant": "Rounding errors could accumulate over runs of any length, and the index divides two small numbers.", "anchors": ["indicators/relative_strength_index.cc:RelativeStrengthIndex::Update", "indicators/relative_strength_index.cc:RelativeStrengthIndex::GetRelativeStrengthIndex"]}
{"id": "C111", "title": "Float error of the stochastic oscillator", "statement": "In IEEE single precision, for valid ticks with finite prices of at most 2^120 fed in time order: if the span between highest high and lowest low of the last n periods was never within a factor of two above 2^-20 (the program reports 50 below 10^-6), the reported %K is within 2^-15 of the exact %K of the aggregated ticks and, after N <= 2^19 periods, the fast %D is within N * 2^-11 and the slow %D within N * 2^-10 of the exact means of the last three values. The error depends on the number of periods only, not on the number of updates.", "quantifier": "all update sequences of any length, all numbers of periods n, IEEE binary32", "why_tests_cant": "Rounding errors could accumulate in the running sums over runs of any length.", "anchors": ["indicators/stochastic_oscillator.cc:StochasticOscillator::Update", "indicators/stochastic_oscillator.cc:StochasticOscillator::UpdateK"]}
{"id": "C112", "title": "Rounding does not change which records are outliers", "statement": "In IEEE single precision, for finite records with prices between 2^-40 and 2^40 and a deviation of 0 to 1024: if, by the exact rule, no price is within 2^-19 (two parts per million) of an edge or confirmation threshold it is compared with, RemoveOutliers keeps exactly the records the exact rule keeps and reports exactly the others. A history of well-formed records in which the price never moves by more than (1 + dev)(1 - 2^-18) between neighbours is returned unchanged. Cleaning a cleaned history again changes nothing if no kept record jumps with respect to the kept record before it; in general cleaning is not idempotent (refuted).", "quantifier": "all price histories of any length, all deviations in range, IEEE binary32; the unchanged/again parts also for any arithmetic", "why_tests_cant": "Borderline comparisons through sqrt, products and quotients cannot be enumerated; each decision depends on all earlier ones.", "anchors": ["base/history.cc:RemoveOutliers"]}
{"id": "C113", "title": "Orders for a quote amount execute exactly when feasible, as planned, and use up the request", "statement": "In exact arithmetic, with non-negative fees and balances that are whole units: an order to buy or sell for x quote currency is executed exactly when the tick reaches the order's price and the plan is feasible. The plan: q is x rounded to the quote unit, f the fee on q; b is the base amount that q-f (buying) or q+f (selling) is worth at the execution price, at most the volume cap (limit orders; the largest float for the others), rounded down to the base unit; c is b times the price rounded up (buying) or down (selling), g the fee on c. Feasible: q and b are at least one unit and, buying, f < q <= the quote balance; selling, b <= the base balance and c-g at least one quote unit. An executed order changes the balances and the fee total by exactly b, c and g, a rejected one changes nothing. An executed buy spends at most q including the fee and, unless the cap bites, leaves unspent at most the price of one base unit plus f-g; an executed sale earns at most q net of the fee and, unless the cap bites, falls short by at most the price of one base unit, one quote unit and g-f.", "quantifier": "every fee schedule, account, tick, order type and side, limit price and requested amount", "why_tests_cant": "Amounts, prices, fees and units range over the reals; tests use a handful.", "anchors": ["base/account.cc:Account::BuyAtQuote", "base/account.cc:Account::SellAtQuote", "base/account.cc:Account::ExecuteOrder"]}
{"id": "C114", "title": "In single precision a clearly feasible order executes and a clearly infeasible one does not", "statement": "Within the supported ranges, and with all arithmetic in single precision: (1) an order whose trigger condition holds on the tick, which asks for at least one unit, and for which every trade it may stand for (price, base amount, quote amount and fee known up to one rounding to units and a relative error of 2^-20) is affordable, is executed by ExecuteOrder; (2) an order that ExecuteOrder executes had its trigger condition met and stands for one of these trades, which the account could afford up to the error, and the balances change by that trade; (3) so an order that is not triggered, or none of whose possible trades is nearly affordable, is rejected and leaves the account untouched; (4) a market or stop order to sell the whole base balance (up to 2^20 units), as the stop trader emits it, is not rejected for rounding: it executes when the proceeds cover one quote unit, and leaves a base balance of exactly zero.", "quantifier": "every supported account, configuration, tick and order (market, stop, limit; buy, sell; base or quote amount), every rounding outcome", "why_tests_cant": "The set of orders near the boundary is a continuum, and each float operation of the code may fall on either side; a test checks one order, the claim needs error bounds for the whole chain of roundings.", "anchors": ["base/account.cc:Account::ExecuteOrder", "base/account.cc:Account::BuyBase", "base/account.cc:Account::SellBase", "base/account.cc:Account::BuyAtQuote", "base/account.cc:Account::SellAtQuote"]}
{"id": "C115", "title": "A balance that rounding makes impossible to invest", "statement": "With the settings of the trader program (fees of half a percent, units 0.00001 and 0.01), no base currency and 10.07 of quote currency, every market or stop order to buy for the whole quote balance is rejected on every tick with prices up to 499, although the amounts in units (1001 for the purchase and 6 for the fee) add up to the balance: the float sum is one place above it. So the stop trader, with any supported margins, on any strictly ordered series of supported ticks up to that price and with any side input, returns but executes no order at all, and ends with the balances it started with; with 10.08 it does trade on the same series.", "quantifier": "every stop trader configuration in range, every tick series with prices up to 499, every side input and logger", "why_tests_cant": "That no order ever executes is a statement about all price series of all lengths; a test only shows one series on which nothing happens.", "anchors": ["base/account.cc:Account::BuyAtQuote", "base/account.cc:Account::BuyBase", "traders/stop_trader.cc:StopTrader::Update", "trader.cc:GetAccountConfig"]}
{"id": "C116", "title": "A run depends only on time differences", "statement": "Moving every tick and every side input record by the same number of seconds (all times staying after the epoch) does not change the result of running a built-in trader: balances, fee, number of executed orders, values and prices are the same, and a run that aborts still aborts, whatever the loggers. The volatilities, when they are computed, are the same if the shift is a whole number of days (they are taken per calendar day: a shift by half a day can change them). An evaluation over one period reports the same gains, score and averages when the period limits are moved too.", "quantifier": "every shift (positive or negative), configuration of either trader, account, history, side input history, logger and evaluation period; every number format", "why_tests_cant": "A test replays one history at one time; that absolute time never leaks into decisions (gaps, stop order movement, side input age, volatility) is a statement about pairs of runs over every history and shift.", "anchors": ["eval/eval.cc:ExecuteTrader", "eval/eval.cc:EvaluateTrader", "traders/stop_trader.cc:StopTrader::Update", "traders/rebalancing_trader.cc:RebalancingTrader::Update", "base/side_input.cc:SideInput::GetSideInputIndex", "indicators/last_n_ohlc_ticks.cc:LastNOhlcTicks::Update"]}
{"id": "C117", "title": "An evaluation does not depend on the unit of the quote currency", "statement": "Counting the quote currency in another unit (every price, the quote balance, the quote unit and the fixed and minimum fees multiplied by the same positive number) gives, in exact arithmetic, the same run and the same evaluation: the same orders execute, with the same base amounts; quote balances, fees and values are multiplied by that number; gains, volatilities, averages of gains and the score are unchanged. For the stop trader this holds always; for the rebalancing trader if quote balances are whole numbers of quote units and a quote unit exceeds its absolute threshold of 0.000001 in both units (without that it can place orders in one unit and none in the other).", "quantifier": "every positive factor, configuration of either trader, account, fee settings, history, side input, logger and evaluation configuration; exact arithmetic", "why_tests_cant": "A scaling law relates two whole evaluations for every history and every factor; tests compare a few numbers on one scale.", "anchors": ["eval/eval.cc:ExecuteTrader", "eval/eval.cc:EvaluateTrader", "base/account.cc:Account::ExecuteOrder", "traders/stop_trader.cc:StopTrader::Update", "traders/rebalancing_trader.cc:RebalancingTrader::Update", "indicators/volatility.cc:Volatility::Update"]}
{"id": "C118", "title": "A field missing from a record of a history file counts as zero, and convert refuses records without a price", "statement": "The optional fields of the history files' records may be missing. The trader behaves exactly as on the files in which every missing field is zero (same outcome, printout and logs). convert on a price file likewise writes the same OHLC file, prints the same gaps and exits the same way; and a record of the period (the start time up to the first record at or after the end time) whose price - or one of whose open, high, low, close - is missing makes it exit with failure without writing anything. A missing volume is accepted.", "quantifier": "every undamaged price, OHLC and side input file with any set of missing fields, all flags", "why_tests_cant": "All combinations of missing fields at all positions of unbounded files; the tests only write complete records.", "anchors": ["convert.cc:ReadHistoryFromDelimitedProtoFile", "convert.cc:ReadPriceHistoryFromDelimitedProtoFile", "trader.cc:ReadHistory", "base/base.proto"]}
{"id": "C119", "title": "The trailing stop in single precision moves at the configured rate up to 2^-22 per update, and not at all when the rate is too small", "statement": "With expf and logf accurate to one unit in the last place, on every update of a stop trader that does not start a new position, the float stop price goes from p to: p if the follow limit is behind it; otherwise to q, bounded by the follow limit and never backwards, where q is within a relative 2^-22 of p times the configured daily rate compounded over the elapsed time. Over any stretch of n updates of one position the stop price moves at most by the compounded daily rate times (1+2^-22)^n, and at least by it times (1-2^-22)^n while the margin does not hold it back. If, in addition, expf is correctly rounded and the daily rate times the seconds between updates is at most 1/250 (long) or 1/500 (in cash), the stop price stays exactly where it was placed, however long the position lasts.", "quantifier": "every configuration with a daily increase in [0,1] and a daily decrease in [0,1/2], every sequence of updates with prices between 2^-100 and 2^100, every accurate libm, every stretch and its length", "why_tests_cant": "the bound must hold for every price, rate, sampling interval and stretch length; a test checks a few ticks with a tolerance and cannot show that a small rate is lost forever", "anchors": ["traders/stop_trader.cc:StopTrader::UpdateStopOrderPrice", "traders/stop_trader.cc:StopTrader::Update"]}
{"id": "C120", "title": "What is left behind by a full disk or a killed converter is the beginning of the right files", "statement": "On a device that accepts a limited number of bytes, the converter's delimited writer leaves exactly the first bytes that fit of the file it would have written; its status is Ok if everything fits, and Ok implies that at most the last 8192 bytes are missing (files of at most 8192 bytes are always reported as written). The converter therefore leaves a beginning of its list of output files, each missing at most its last 8192 bytes, with the undisturbed exit code, or else those followed by one file that is cut off, with the failure exit code; with enough space nothing changes. If the converter is killed at any point of its writing, the trader program refuses the tick file that was left (exit code 1, nothing printed, no log), or reads from it exactly the first n ticks of the history that was being written. The trader program's exit code and printed results do not depend on whether its log files fit; each log file is then a beginning of the complete one.", "quantifier": "every environment, flags, list of messages, every number of bytes each file accepts, every point at which the converter is killed, every trader run started afterwards", "why_tests_cant": "crash points and disk sizes cannot be enumerated, and a unit test writes to a stream that never fails; the claim about a truncated file covers every position of the cut", "anchors": ["util/proto.h:WriteDelimitedMessagesToOStream", "util/proto.h:WriteDelimitedMessagesToFile", "convert.cc:main", "trader.cc:main"]}
{"id": "C121", "title": "More money and lower fees never hurt an order for a base amount", "statement": "In single precision, whenever an order for an amount of base currency is executed, the same order on the same candle is also executed by an account with the same units, liquidity and volume ratio, at least as much base and quote balance and no higher fees (relative, fixed, minimum); afterwards that account still has at least as much of both currencies and has paid no more fees. The same holds for every sequence of such orders that are all executed. In exact arithmetic an executed buy for a quote amount is also executed with more quote currency and lower fees and buys at least as much. The literal claim is false for quote amounts: in single precision a fee lowered from 0.2% to 0.1% turns an executed all-in buy into a rejected one, and without the fixed fee an order to sell for a quote amount may round down to nothing and be rejected.", "quantifier": "all order types and sides with base amounts, all candles, all pairs of accounts and fee settings in the stated ranges, all sequences of orders", "why_tests_cant": "it relates two runs over all balances and fees, through float roundings to units in both; a test compares a few settings", "anchors": ["base/account.cc:Account::BuyBase", "base/account.cc:Account::SellBase", "base/account.cc:Account::GetFee", "base/account.cc:Account::ExecuteOrder"]}
{"id": "C122", "title": "A more liquid market never hurts an order for a base amount", "statement": "In exact arithmetic, whenever a well-formed order for an amount of base currency is executed, the same order on the same candle is also executed in a market of at least the same liquidity by an account with the same units and volume ratio, at least as much of both currencies and no higher fees (relative fees at most 100%), and leaves it with at least as much of both currencies; and so for every sequence of such orders that are all executed. An executed buy for a quote amount is also executed under better conditions and buys at least as much. Single precision breaks the claim by an ulp: with a liquidity of 1% a market order on a candle whose prices are all 7 pays more than 7, more than with no liquidity at all. And a sale for a quote amount may sell nothing, and be rejected, at a better price.", "quantifier": "all order types and sides, all candles, all pairs of accounts, liquidities and fee settings with relative fees of at most 100%, all sequences of orders", "why_tests_cant": "it relates two runs over all settings; tests compare a handful", "anchors": ["base/account.cc:Account::GetMarketBuyPrice", "base/account.cc:Account::GetMarketSellPrice", "base/account.cc:Account::GetStopBuyPrice", "base/account.cc:Account::GetStopSellPrice", "base/account.cc:Account::BuyBase", "base/account.cc:Account::SellBase"]}
{"id": "C123", "title": "The gaps convert prints", "statement": "Every printed gap line gives both ends of the gap as a Unix time and as a UTC date and time (proleptic Gregorian calendar) and the length as hours:minutes:seconds with h*3600+m*60+s equal to the length. When convert reads a CSV file of price lines (C105) the printed lines are, in chronological order, the requested number of longest gaps between consecutive records of the requested period (all of them if there are fewer or if a negative number is requested; none for 0), the earlier of equally long ones. Whatever the price input is, if a price file is written then the listed gaps are those of the records in the written price file.", "quantifier": "all well-formed CSV files, periods and flags; for the last claim all files, flags and number scanners; all 32-bit requested numbers", "why_tests_cant": "the listing depends on the whole history, on the calendar and on a 64-bit conversion; no test runs the program", "anchors": ["convert.cc:PrintPriceHistoryGaps", "base/history.cc:GetPriceHistoryGaps", "util/time.cc:FormatTimeUTC", "convert.cc:DurationToString"]}
{"id": "C124", "title": "Averages stay within the range of what they average, follow it monotonically and do not depend on the unit of the prices", "statement": "In exact arithmetic, after any non-empty time-ordered updates whose closes lie between lo and hi: the simple moving average, the exponential moving average (weight between 0 and 1) and MACD's fast and slow averages lie between lo and hi, the MACD and signal values are at most hi-lo and the divergence at most 2(hi-lo) in absolute value; the stochastic oscillator's %K and both %D lie between 0 and 100 (well-formed ticks). The sliding mean of values between lo and hi lies between lo and hi and their standard deviation is at most (hi-lo)/2; if no period changes the portfolio value by more than a factor of e^r, the volatility is at most r. The averages of an evaluation lie between the smallest and the largest value of its periods and, for positive relative gains, so does its score. Raising closes never lowers the simple or exponential average. Replacing every close x by a*x+b changes averages m to a*m+b, all MACD differences by the factor a, and standard deviations by the factor |a|. In single precision the range holds up to the drift bounds of C92 and C93 but not exactly: after two closes of 3 the 12-period exponential average exceeds 3.", "quantifier": "all histories of updates, window lengths, periods, weights, value operations, evaluations; every range, factor and offset", "why_tests_cant": "a relation between whole histories; tests check a few values", "anchors": ["indicators/simple_moving_average.cc:SimpleMovingAverage", "indicators/exponential_moving_average.cc:ExponentialMovingAverage", "indicators/moving_average_convergence_divergence.cc:MovingAverageConvergenceDivergence", "indicators/util.cc:SlidingWindowMeanAndVariance", "indicators/volatility.cc:Volatility", "indicators/stochastic_oscillator.cc:StochasticOscillator", "eval/eval.cc:EvaluateTrader"]}
{"id": "C125", "title": "No run gains more than perfect foresight of its own fills", "statement": "In exact arithmetic the end value of a run plus all the fees it paid is at most the start value times the product of the rises max(1, q/p) along the path start price, fill prices in tick order, end price, where every fill price lies in the range of the tick the order executed on: a run gains at most what somebody would who holds only base whenever the price rises between two of its fills and only quote whenever it falls. Hence with n executed orders in a market that stays within [lo, hi] the value grows at most by the factor (hi/lo)^(1 + n/2), whatever the trader, fees and liquidities are; where the price moves only between the ticks it grows at most by the product of the rises of the closing prices, and where it then never rises the value lost is at least the fees paid.", "quantifier": "all traders, sound configurations (fees, units, liquidities, volume limits), starting balances, price histories of well-formed ticks and side inputs for which the run returns", "why_tests_cant": "a bound over every strategy and market; tests run a few traders on a few ticks and cannot rule out an execution price that gives value away", "anchors": ["eval/eval.cc:ExecuteTrader", "base/account.cc:Account::ExecuteOrder", "base/account.cc:Account::BuyBase", "base/account.cc:Account::SellBase"]}
{"id": "C126", "title": "In single precision no run gains more than perfect foresight, but for a slack per trade", "statement": "In the arithmetic the programs really use, a run with units of base and quote currency, whole starting balances and supported settings and ticks returns a finite start value, end value and total fee, and the end value plus all the fees paid is at most the start value plus one quote unit, times (1 + 2^-17) for each executed order and once more, times the product of the rises max(1, q/p) along the path start price, fill prices in tick order, end price; every fill price lies in the candle of the tick it executed on, up to one part in four million. Hence in a market that stays within [lo, hi] the factor is at most (1 + 2^-17)^(1+n) times (hi/lo (1 + 2^-20))^(1 + n/2) for n executed orders. For the traders the programs can create nothing is assumed about the orders; the only condition read off the run is that its log never shows a balance or total fee of more than 2^20 units. Without the slack it is false: one unit of base currency quoted at 1 and then 3 gains an ulp more than threefold.", "quantifier": "all traders, supported configurations, whole starting balances, supported tick histories of any length and side inputs for which the run returns, with at most 2^20 units held at any time", "why_tests_cant": "a bound over every strategy, market and accumulation of rounding errors; C125 shows it in exact arithmetic, but whether rounding can be farmed by trading often cannot be seen from a few runs", "anchors": ["eval/eval.cc:ExecuteTrader", "base/account.cc:Account::ExecuteOrder", "base/account.cc:Account::BuyBase", "base/account.cc:Account::SellBase", "base/account.cc:Round"]}
{"id": "C127", "title": "More data does not change the candles of the past", "statement": "When a price history is extended by later records, the fate of every record that already had ten well-formed records after it is settled: outlier removal keeps and drops exactly the same ones of them. Resampling two histories that agree up to and including a record gives the same candles up to the time of that record. Hence converting a price CSV file and later a longer one (or more of the same one, with a later end time) with the same deviation and sampling rate gives two candle files that agree on every candle that is over by the time of a record that is kept and has ten more records after it. Before ten records have followed the fate is open: a jump removed today is kept once three more records confirm it.", "quantifier": "all price histories, extensions, deviations, positive sampling rates, flags, files and start and end times for which the program's input is a valid history", "why_tests_cant": "relates two runs of the program over all extensions; a test compares a run with expected output, not with a run on more data, and finding the look-ahead bound needs all inputs", "anchors": ["base/history.cc:RemoveOutliers", "base/history.cc:Resample", "convert.cc:main"]}
{"id": "C128", "title": "An evaluation is made of its windows and of nothing else", "statement": "With a positive period length, every period an evaluation reports is field by field what evaluating that period's own range as a whole (period length 0) reports, on any history with the same ticks in that range and with any logger. That evaluation of one window can only abort where the window's own score is negative or not a number. Two histories with the same ticks in every window evaluate alike step for step, failures and log included; in particular the ticks before the start and from the end on do not matter. Evaluating up to a later end, on a history with the same ticks and side input with the same records before the former end, reports the former periods first and unchanged, then only periods that end after the former end.", "quantifier": "all traders, account and evaluation configurations with a positive period, ordered histories that start in time, side inputs, loggers and later ends, on every arithmetic", "why_tests_cant": "relates two evaluations of different ranges and histories; tests look at one evaluation, and a leak from one window into another shows only for a trader or history that was not tried", "anchors": ["eval/eval.cc:EvaluateTrader", "eval/eval.cc:ExecuteTrader", "base/history.h:HistorySubset"]}
{"id": "C129", "title": "The table of the trader program grows, and its lines stand for themselves", "statement": "When the trader program is run again with a later end time on a candle file that has the same candles before the former end (and possibly more after it) and a side input file with the same records before the former end (or none both times), the table it prints starts with the lines it printed before, unchanged, and goes on only with lines of periods that end after the former end. Copying the two times of a printed line back into the time flags and asking for that period as a whole (without side input) prints exactly this one line again; the program can only abort instead, and only where the score in that line is negative or not a number.", "quantifier": "all flags for one trader over months, file systems, candle and side input files, later ends, traders and printed lines", "why_tests_cant": "relates two runs of the program over all files and extensions; a test compares one run with one expected table", "anchors": ["trader.cc:main", "trader.cc:PrintTraderEvalResult", "eval/eval.cc:EvaluateTrader", "base/time.cc:ParseTime"]}
