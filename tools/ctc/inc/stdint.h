typedef unsigned char uint8_t; typedef unsigned short uint16_t; typedef unsigned int uint32_t; typedef unsigned long uint64_t;
typedef signed char int8_t; typedef short int16_t; typedef int int32_t; typedef long int64_t; typedef unsigned long uintptr_t;
#define UINT8_C(x) (x)
#define UINT64_C(x) (x##UL)
#define UINT32_C(x) (x##U)
#define SIZE_MAX (18446744073709551615UL)
