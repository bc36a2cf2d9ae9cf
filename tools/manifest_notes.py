STATUS = {
 "C11": ("proved", "The naive expectation (InsufficientBytes always means: append and retry) is refuted by C11_v5_refuted; C11_v5_consumed_exact says which frames break it."),
 "C14": ("proved", "The naive expectation (CONNECT appends too) is refuted by C14_v4_refuted, C14_v4_connect_frame_refuted, C14_v5_refuted."),
 "C15": ("proved", "The naive expectation for CONNECT is refuted by C15_v4_refuted, C15_v5_refuted."),
 "C17": ("proved", "The naive expectation (buffer unchanged) is refuted by C17_*_refuted and C17_*_always_dirty."),
}
