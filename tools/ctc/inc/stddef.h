typedef unsigned long size_t;
#define NULL ((void*)0)
