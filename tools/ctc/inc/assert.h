#define assert(x) __assert(x)
#define static_assert _Static_assert
