#define bool _Bool
#define true 1
#define false 0
